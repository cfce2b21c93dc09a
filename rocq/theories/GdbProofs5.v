From Coq Require Import ZArith List Ascii String Bool Lia Arith.
From Verif Require Import PyBase PyFacts PyInt PyIntFacts Platform IntModel ToolsModel SigModel DbgModel MapModel TraceModel PyEval ExprModel GdbModel GdbSpec GdbProofs GdbProofs2 GdbProofs3 GdbProofs4.
Import ListNotations.
Open Scope Z_scope.

(** ** Interruption *)
Section Interrupt.
  Context (env : list (gcall * ans) -> gcall -> ans) (running : nat -> bool).
  Definition send_loop : list nat -> list nat -> GM (list nat) :=
    (fix loop (l waitlist : list nat) : GM (list nat) :=
       match l with
       | [] => gret (rev waitlist)
       | id :: l =>
           stopped <-- ask_bool env (CIsStopped id);
           if stopped : bool then loop l waitlist
           else
             traced <-- gtry (ask_bool env (CIsTraced id)) (fun x => match x with XErr ENotImplementedError => gret false | x => graise x end);
             if traced : bool then loop l waitlist
             else
               _ <-- glog (LSendInt id);
               _ <-- ask_unit env (CKill id 2);
               loop l (id :: waitlist)
       end).
  Definition wait_one (id : nat) : GM unit :=
      _ <-- glog (LWaitInt id);
      gtry (_ <-- ask_event env (CWait id 2); gret tt)
           (fun x => match x with
                     | XEvent (ProcessSignal s q) => ask_unit env (CDisplay (ProcessSignal s q))
                     | XErr EKeyboardInterrupt => gret tt
                     | x => graise x
                     end).
  Lemma interrupt_eq : interrupt env = (l <-- ask_procs env CProcesses; w <-- send_loop l []; giter wait_one w).
  Proof. reflexivity. Qed.
  Hypothesis (H_running : forall h q, exists s, env h (CIsStopped q) = ABool s /\
    (if s then running q = false
     else env h (CIsTraced q) = ABool (negb (running q)) \/ (env h (CIsTraced q) = ARaise (XErr ENotImplementedError) /\ running q = true))).
  Hypothesis (H_traced : forall h h' q s, env h (CIsStopped q) = ABool s -> env h' (CIsStopped q) = ABool s).
  Lemma bool_run c st b : env (g_hist st) c = ABool b -> ask_bool env c st = (push c (ABool b) st, Ret b).
  Proof. intros H. unfold ask_bool, gbind, ask. rewrite H. reflexivity. Qed.
  Lemma send_ok l : forall w st st' r, send_loop l w st = (st', Ret r) ->
    r = rev w ++ filter running l /\ killed (g_hist st') = killed (g_hist st) ++ map (fun q => (q, 2)) (filter running l) /\ waited (g_hist st') = waited (g_hist st).
  Proof.
    induction l as [|q l IH]; intros w st st' r H; cbn [send_loop] in H.
    - injection H as <- <-. cbn [filter map]. now rewrite !app_nil_r.
    - fold send_loop in H. apply bind_ok in H as (st1 & s & H1 & H). destruct (H_running (g_hist st) q) as (b & Hb & Hr). rewrite (bool_run _ _ _ Hb) in H1. assert (s = b /\ st1 = push (CIsStopped q) (ABool b) st) as [-> ->] by (split; congruence). clear H1. cbn [filter]. destruct b.
      + rewrite Hr. apply IH in H. exact H.
      + apply bind_ok in H as (st2 & t & H1 & H).
        destruct (H_running ((CIsStopped q, ABool false) :: g_hist st) q) as (b & Hb2 & Hr2). pose proof (H_traced _ ((CIsStopped q, ABool false) :: g_hist st) _ _ Hb) as Hb3. assert (b = false) as -> by congruence.
        assert (t = negb (running q) /\ exists a, st2 = push (CIsTraced q) a (push (CIsStopped q) (ABool false) st)) as (-> & a & ->).
        { unfold gtry, ask_bool, gbind, ask in H1. cbn [push g_hist] in H1. destruct Hr2 as [E|[E E']]; rewrite E in H1; cbn [gret] in H1.
          - split; [congruence|]. eexists. unfold gret in H1. assert (st2 = push (CIsTraced q) (ABool (negb (running q))) (push (CIsStopped q) (ABool false) st)) as -> by congruence. reflexivity.
          - rewrite E'. unfold gret in H1. split; [cbn [negb]; congruence|]. eexists. assert (st2 = push (CIsTraced q) (ARaise (XErr ENotImplementedError)) (push (CIsStopped q) (ABool false) st)) as -> by congruence. reflexivity. }
        clear H1. destruct (running q); cbn [negb] in H.
        * apply bind_ok in H as (st3 & [] & H1 & H). unfold glog in H1. injection H1 as <-. apply bind_ok in H as (st3 & [] & H1 & H). apply ask_unit_ok in H1. subst st3. apply IH in H. destruct H as (K1 & K2 & K3). cbn [push g_hist killed waited] in K2, K3.
          split; [|split; [|exact K3]].
          -- rewrite K1. cbn [rev]. now rewrite <- app_assoc.
          -- rewrite K2. cbn [map]. now rewrite <- app_assoc.
        * apply IH in H. exact H.
  Qed.
  Lemma wait_one_ok q st st' : wait_one q st = (st', Ret tt) -> killed (g_hist st') = killed (g_hist st) /\ waited (g_hist st') = waited (g_hist st) ++ [(q, 2)].
  Proof.
    unfold wait_one. unfold gbind at 1, glog. unfold gtry, ask_event, gbind, ask. cbn [push g_hist]. destruct (env _ (CWait q 2)) as [| | | | | | | | | |x]; cbn [gret graise ill]; unfold gret; intros H; try discriminate.
    - injection H as <-. split; reflexivity.
    - destruct x as [e|[| | |s q']].
      + destruct e; try discriminate. injection H as <-. split; reflexivity.
      + discriminate. + discriminate. + discriminate.
      + apply ask_unit_ok in H. subst st'. split; reflexivity.
  Qed.
  Lemma waits_ok l : forall st st', giter wait_one l st = (st', Ret tt) -> killed (g_hist st') = killed (g_hist st) /\ waited (g_hist st') = waited (g_hist st) ++ map (fun q => (q, 2)) l.
  Proof.
    induction l as [|q l IH]; intros st st' H.
    - injection H as <-. split; [reflexivity|]. now rewrite app_nil_r.
    - cbn [giter] in H. apply bind_ok in H as (st1 & [] & H1 & H). apply wait_one_ok in H1 as [K1 K2]. apply IH in H as [L1 L2]. split; [congruence|]. rewrite L2, K2. cbn [map]. now rewrite <- app_assoc.
  Qed.
  Lemma interrupt_ok st st' l : env (g_hist st) CProcesses = AProcs l -> interrupt env st = (st', Ret tt) ->
    killed (g_hist st') = killed (g_hist st) ++ map (fun q => (q, 2)) (filter running l) /\ waited (g_hist st') = waited (g_hist st) ++ map (fun q => (q, 2)) (filter running l).
  Proof.
    intros He H. rewrite interrupt_eq in H. apply bind_ok in H as (st1 & l' & H1 & H). rewrite (procs_run env st l He) in H1. assert (l' = l /\ st1 = push CProcesses (AProcs l) st) as [-> ->] by (split; congruence). clear H1.
    apply bind_ok in H as (st2 & r & H1 & H). apply send_ok in H1 as (-> & K2 & K3). cbn [rev app] in H. apply waits_ok in H as [L1 L2]. rewrite L1, L2, K2, K3. split; reflexivity.
  Qed.
End Interrupt.

(** ** Steps *)
Section StepSpec.
  Context (p : platform) (dis : bool) (env : list (gcall * ans) -> gcall -> ans).
  Definition creates (x : gcall * ans) : Prop := match fst x with CCreateBreakpoint _ _ _ => True | _ => False end.
  Definition adds {A} (m : GM A) : Prop := forall st, exists new, g_hist (fst (m st)) = new ++ g_hist st /\ Forall (fun x => ~ creates x) new.
  Lemma adds_bind {A B} (m : GM A) (f : A -> GM B) : adds m -> (forall a, adds (f a)) -> adds (gbind m f).
  Proof.
    intros Hm Hf st. unfold gbind. destruct (Hm st) as (n1 & E1 & F1). destruct (m st) as [st1 [a|x]]; cbn [fst] in *; [|eauto]. destruct (Hf a st1) as (n2 & E2 & F2). exists (n2 ++ n1). rewrite E2, E1, app_assoc. split; [reflexivity|]. apply Forall_app. auto.
  Qed.
  Lemma adds_try {A} (m : GM A) h : adds m -> (forall x, adds (h x)) -> adds (gtry m h).
  Proof.
    intros Hm Hf st. unfold gtry. destruct (Hm st) as (n1 & E1 & F1). destruct (m st) as [st1 [a|x]]; cbn [fst] in *; [eauto|]. destruct (Hf x st1) as (n2 & E2 & F2). exists (n2 ++ n1). rewrite E2, E1, app_assoc. split; [reflexivity|]. apply Forall_app. auto.
  Qed.
  Lemma adds_ask c : (match c with CCreateBreakpoint _ _ _ => False | _ => True end) -> adds (ask env c).
  Proof. intros Hc st. unfold ask. cbn [fst]. exists [(c, env (g_hist st) c)]. split; [reflexivity|]. constructor; [|constructor]. unfold creates. cbn [fst]. destruct c; tauto. Qed.
  Lemma adds_log l : adds (glog l).
  Proof. intros st. exists [(CLog l, AUnit)]. split; [reflexivity|]. constructor; [|constructor]. unfold creates. cbn [fst]. tauto. Qed.
  Lemma adds_pure {A} (o : gstate -> out A) : adds (fun st => (st, o st)).
  Proof. intros st. exists []. split; [reflexivity|constructor]. Qed.
  Ltac adds :=
    repeat match goal with
    | |- adds (gbind _ _) => apply adds_bind; [|intros]
    | |- adds (gtry _ _) => apply adds_try; [|intros]
    | |- adds (glog _) => apply adds_log
    | |- adds (ask _ _) => apply adds_ask; exact I
    | |- adds (gret _) => apply adds_pure
    | |- adds (graise _) => apply adds_pure
    | |- adds ill => apply adds_pure
    | |- adds gget => apply adds_pure
    | |- adds (match ?x with _ => _ end) => destruct x
    | |- adds (if ?x then _ else _) => destruct x
    end.
  Lemma adds_instr t : adds (displayInstr dis env t).
  Proof. unfold displayInstr, on_ptrace_error, ask_int, ask_unit. adds. Qed.
  Lemma adds_size a : adds (readInstrSize dis env a).
  Proof. unfold readInstrSize, on_ptrace_error, ask_int. adds. Qed.
  Lemma adds_wait o : adds (step_wait env o).
  Proof. unfold step_wait, ask_event, ask_unit. adds. Qed.
  Definition cleans {A} (m : GM A) : Prop := forall st, exists new, g_hist (fst (m st)) = new ++ g_hist st /\
    forall id a size bp, In (CCreateBreakpoint id a size, AObj (Some bp)) new -> removed (g_hist (fst (m st))) id bp.
  Lemma cleans_adds {A} (m : GM A) : adds m -> cleans m.
  Proof.
    intros H st. destruct (H st) as (new & E & F). exists new. split; [exact E|]. intros id a size bp Hi. rewrite Forall_forall in F. exfalso. apply (F _ Hi). exact I.
  Qed.
  Lemma cleans_bind {A B} (m : GM A) (f : A -> GM B) : adds m -> (forall a, cleans (f a)) -> cleans (gbind m f).
  Proof.
    intros Hm Hf st. unfold gbind. destruct (Hm st) as (n1 & E1 & F1). destruct (m st) as [st1 [a|x]]; cbn [fst] in *.
    - destruct (Hf a st1) as (n2 & E2 & F2). exists (n2 ++ n1). rewrite E2, E1, app_assoc. split; [reflexivity|]. intros id a0 size bp Hi. rewrite <- app_assoc, <- E1, <- E2. apply in_app_or in Hi as [Hi|Hi]; [eauto|]. rewrite Forall_forall in F1. exfalso. apply (F1 _ Hi). exact I.
    - exists n1. split; [exact E1|]. intros id a size bp Hi. rewrite Forall_forall in F1. exfalso. apply (F1 _ Hi). exact I.
  Qed.
  Lemma cleans_break a : cleans (bp <-- step_break dis env a; step_wait env (Some bp)).
  Proof.
    intros st. enough (exists h new, g_hist (fst ((bp <-- step_break dis env a; step_wait env (Some bp)) st)) = h /\ h = new ++ g_hist st /\
      forall id a size bp, In (CCreateBreakpoint id a size, AObj (Some bp)) new -> removed h id bp) as (h & new & H1 & H2 & H3) by (exists new; rewrite H1; auto).
    unfold step_break. destruct (adds_size a st) as (n1 & E1 & F1). unfold gbind at 1 2. destruct (readInstrSize dis env a st) as [st1 [size|x]]; cbn [fst] in E1.
    2:{ cbn [fst]. exists (g_hist st1), n1. split; [reflexivity|]. split; [exact E1|]. intros id a0 s0 bp Hi. rewrite Forall_forall in F1. exfalso. apply (F1 _ Hi). exact I. }
    unfold gbind at 1, gget. unfold gbind at 1, ask_new. unfold gbind at 1, ask.
    assert (forall id a size bp, ~ In (CCreateBreakpoint id a size, AObj (Some bp)) n1) as Hn1 by (intros id a0 s0 bp Hi; rewrite Forall_forall in F1; apply (F1 _ Hi); exact I).
    destruct (env (g_hist st1) (CCreateBreakpoint (g_process st1) a size)) as [| | | | | | |[bp|]| | |] eqn:Ea; unfold ill, graise, gret;
      try (cbn [fst push g_hist]; eexists _, (_ :: n1); split; [reflexivity|]; split; [rewrite E1; reflexivity|]; intros id a0 s0 bp [Hi|Hi]; [discriminate|exfalso; eapply Hn1; exact Hi]).
    unfold gbind at 1, ask_unit. unfold gbind at 1, ask. set (st2 := push _ _ st1).
    destruct (env (g_hist st2) (CCont (g_process st1) 0)) eqn:Ec; unfold ill, graise, gret;
      try (cbn [fst push g_hist st2]; eexists _, (_ :: _ :: n1); split; [reflexivity|]; split; [cbn [app]; rewrite E1; reflexivity|]; intros id a0 s0 bp0 [Hi|[Hi|Hi]]; [discriminate| |exfalso; eapply Hn1; exact Hi]; injection Hi as <- <- <- <-; right; eexists _, _; split; [reflexivity|discriminate]).
    set (st3 := push _ _ st2). destruct (adds_wait (Some bp) st3) as (n3 & E3 & F3). destruct (wait_removes env bp st3) as (s0 & r & h & Eh). rewrite Eh in E3. exists ((CDesinstall bp s0, r) :: h), (n3 ++ (CCont (g_process st1) 0, AUnit) :: (CCreateBreakpoint (g_process st1) a size, AObj (Some bp)) :: n1).
    split; [exact Eh|]. split.
    - rewrite E3. cbn [push g_hist st3 st2]. rewrite E1. rewrite <- app_assoc. reflexivity.
    - intros id a0 s1 bp0 Hi. left. assert (bp0 = bp) as ->; [|eauto]. apply in_app_or in Hi as [Hi|[Hi|[Hi|Hi]]].
      + rewrite Forall_forall in F3. exfalso. apply (F3 _ Hi). exact I.
      + discriminate.
      + congruence.
      + exfalso. eapply Hn1. exact Hi.
  Qed.
  Lemma step_cleans enter address : cleans (step p dis env enter address).
  Proof.
    unfold step. apply cleans_bind; [destruct address; [adds|apply adds_instr]|]. intros []. destruct enter; cbn [negb].
    - apply cleans_adds. unfold ask_unit. adds. apply adds_wait.
    - destruct address as [a|]; [apply cleans_break|]. apply cleans_bind; [adds|]. intros st. apply cleans_bind; [unfold ask_int; adds|]. intros ip. apply cleans_bind; [apply adds_size|]. intros [n|]; [|apply cleans_adds; adds].
      destruct (n =? 0); [apply cleans_adds; adds|apply cleans_break].
  Qed.
  Lemma until_address a st st' : step p dis env false (Some a) st = (st', Ret None) -> exists bp r, g_hist st' = (CDesinstall bp true, AUnit) :: r /\ exists id size, In (CCreateBreakpoint id a size, AObj (Some bp)) r.
  Proof.
    intros H. unfold step in H. apply bind_ok in H as (st1 & [] & [= <-] & H). cbn [negb] in H. apply bind_ok in H as (st1 & bp & H1 & H). apply break_ok in H1 as (st2 & size & H2 & ->). set (st1 := push _ _ _) in H.
    unfold step_wait in H. apply bind_ok in H as (st3 & s3 & [= <- <-] & H). unfold gtry in H. set (m := gbind _ _) in H. destruct (m st1) as [st4 [a4|x]] eqn:Em.
    - injection H as <- ->. unfold m in Em. apply bind_ok in Em as (st5 & ev & E5 & Em). apply bind_ok in Em as (st6 & [] & E6 & Em). apply ask_unit_ok in E6. injection Em as <-. subst st6. unfold ask_event, gbind, ask in E5.
      exists bp. eexists. split; [reflexivity|]. exists (g_process st2), size. destruct (env (g_hist st1) (CWait (g_process st1) SIGTRAP)); try discriminate. injection E5 as <- _. cbn [push g_hist st1]. right. right. left. reflexivity.
    - exfalso. apply bind_ok in H as (? & ? & _ & H). discriminate.
  Qed.
End StepSpec.

(** ** The words of the commands *)
Lemma dispatch_unknown c : ~ In c words -> (forall w, In w prefixes -> starts_with w c = false) -> dispatch c = KUnknown c.
Proof.
  intros Hw Hp. assert (forall w, In w words -> text_eqb c w = false) as Hw' by (intros w Hi; apply text_eqb_neq; intros ->; contradiction).
  unfold dispatch, is, has.
  repeat match goal with |- context [text_eqb c ?w] => rewrite (Hw' w) by (unfold words; cbn [map In]; repeat (first [left; reflexivity|right])) | |- context [starts_with ?w c] => rewrite (Hp w) by (unfold prefixes; cbn [map In]; repeat (first [left; reflexivity|right])) end.
  cbn [orb]. unfold is.
  destruct (text_eqb c (T "switch")) eqn:E; [|reflexivity]. apply text_eqb_eq in E. exfalso. subst c. specialize (Hp (T "switch")). assert (starts_with (T "switch") (T "switch") = false) by (apply Hp; unfold prefixes; cbn [map In]; tauto). discriminate.
Qed.
Lemma hex_column_inj s : forall s', map hex_byte s = map hex_byte s' -> s = s'.
Proof. induction s as [|c s IH]; intros [|c' s'] H; try discriminate; [reflexivity|]. cbn [map] in H. injection H as H1 H2 H3. f_equal; [|now apply IH]. apply hex_byte_inj. unfold hex_byte. congruence. Qed.
Lemma cont_loop_once env s l : NoDup l -> forall st st', sinv false st -> cont_loop env s l st = (st', Ret tt) -> forall q, In q l -> last_of st' q = 0.
Proof.
  intros Hn st st' Hi H q Hq. destruct (cont_loop_ok env s l Hn st st' Hi H) as (_ & _ & K3 & [_ K4]). destruct (K4 q) as [E|[E _]]; [|discriminate]. rewrite E, K3. destruct (in_dec Nat.eq_dec q l); [reflexivity|contradiction].
Qed.
