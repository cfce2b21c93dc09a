From Coq Require Import ZArith List Ascii String Bool Lia.
From Verif Require Import PyBase PyFacts Platform IntModel IntSpec IntProofs RegModel SigModel TabModel TabSpec TabProofs ArgModel ArgSpec ArgProofs ArgProofs3 DbgModel DbgSpec DbgProofs DbgProofs2 DbgProofs3 DbgProofs4 DbgProofs5 DbgFinal DbgFinal2 SysModel SysSpec SysProofs.
Import ListNotations.
Open Scope Z_scope.

#[local] Opaque SYSCALL_PROTOTYPES.

Section Facts.
  Context (p : platform) (ns : namespace) (repr_fs : list byte -> text) (errorcode : list (Z * text)) (strerror : Z -> text).

  (** ** C35 *)
  Lemma exit_value c c' t r : exit_ p errorcode strerror (Ok r) c = Ok (c', t) ->
    c_result c' = Some (fst (result_text p errorcode strerror (get (f_restype (c_func c))) r)) /\
    t = snd (result_text p errorcode strerror (get (f_restype (c_func c))) r) /\ c_result_text c' = Some t.
  Proof.
    unfold exit_. cbn [bind set_args f_restype]. destruct (result_text _ _ _ _ _) as [value x]. intros [= <- <-]. cbn. auto.
  Qed.
  Lemma result_spec restype r n : ends_with (T "*") restype = false -> signed_of (wbits p) r n ->
    fst (result_text p errorcode strerror restype r) = n /\
    (forall symbol, n < 0 -> dget Z.eqb (- n) errorcode = Some symbol ->
       snd (result_text p errorcode strerror restype r) = str_int n ++ T " " ++ symbol ++ T " (" ++ strerror (- n) ++ T ")") /\
    (0 <= n <= 9 -> snd (result_text p errorcode strerror restype r) = str_int n) /\
    (0 <= r -> (n < 0 /\ dget Z.eqb (- n) errorcode = None) \/ 9 < n ->
       exists hex, hex_text hex r /\ snd (result_text p errorcode strerror restype r) = str_int n ++ T " (" ++ hex ++ T ")").
  Proof.
    intros Hs Hn. unfold result_text. rewrite Hs. cbv zeta.
    assert (ulong2long p r = n) as -> by (apply (signed_unique (wbits p) r); [destruct (wbits_cases p) as [[_ ->]|[_ ->]]; lia|apply ulong2long_spec|exact Hn]).
    destruct (n <? 0) eqn:E; zb.
    - destruct (dget Z.eqb (- n) errorcode) as [symbol|] eqn:Ee.
      + split; [reflexivity|]. split; [intros s _ [= <-]; reflexivity|]. split; [lia|]. intros _ [[_ H]|H]; [discriminate|lia].
      + assert (0 <=? n = false) as -> by (apply Z.leb_gt; lia). cbn [andb negb fst snd]. split; [reflexivity|]. split; [discriminate|]. split; [lia|].
        intros Hr _. exists (formatWordHex p r). split; [now apply wordhex_spec|reflexivity].
    - assert (0 <=? n = true) as -> by (apply Z.leb_le; lia). destruct (n <=? 9) eqn:E9; zb; cbn [andb negb fst snd].
      + split; [reflexivity|]. split; [lia|]. split; [reflexivity|]. lia.
      + split; [reflexivity|]. split; [lia|]. split; [lia|]. intros Hr _. exists (formatWordHex p r). split; [now apply wordhex_spec|reflexivity].
  Qed.
  Lemma result_pointer restype r : ends_with (T "*") restype = true -> 0 <= r ->
    fst (result_text p errorcode strerror restype r) = r /\
    (r = 0 -> snd (result_text p errorcode strerror restype r) = T "NULL") /\ (0 < r -> hex_text (snd (result_text p errorcode strerror restype r)) r).
  Proof.
    intros Hs Hr. unfold result_text. rewrite Hs. cbn [fst snd]. split; [reflexivity|]. split; [intros ->; reflexivity|apply formatAddress_hex].
  Qed.
  (** The restype of every call is "long", so that the text is never an address *)
  Lemma enter_restype opts v sp regs c c' : new_syscall p regs = Ok c -> enter p ns repr_fs opts v sp regs c = Ok c' -> running_linux p = true -> p_cpu p <> OtherCPU ->
    f_restype (c_func c') = Some (T "long").
  Proof.
    intros Hn He Hl Hc. destruct (new_spec p regs c Hn) as (_ & Ha & Hr & _). destruct (replaced opts (c_func c)) eqn:Er.
    - destruct (socketcall_replaced p ns repr_fs opts v sp regs c c' He Er Ha Hc Hl) as (number & address & name & restype & formats & _ & _ & _ & Hp & _ & H & _).
      rewrite H. now rewrite (proj1 (prototypes_fine _ _ _ Hp)).
    - destruct (enter_plain p ns repr_fs opts v sp regs c c' He Er Ha) as (values & _ & _ & _ & _ & H & _). rewrite H. unfold readArguments.
      destruct (dget text_eqb (f_name (c_func c)) SYSCALL_PROTOTYPES) as [[r f]|] eqn:E; [|exact Hr]. cbn [f_restype].
      now rewrite (proj1 (prototypes_fine _ _ _ (has_prototype_dget _ _ _ E))).
  Qed.

  (** ** C34 *)
  Context (K : dkernel) (ignore_exec_trap : bool) (ignore : option (syscall_call -> bool)) (opts : options) (fuel : nat) (id : nat).
  Notation event := (ss_event p ns repr_fs errorcode strerror K ignore_exec_trap ignore opts fuel id).
  Notation run := (run_inputs p ns repr_fs errorcode strerror K ignore_exec_trap ignore opts fuel id).
  Definition ignored (c : syscall_call) : bool := match ignore with Some f => f c | None => false end.
  Lemma enter_step st s d s' d' r : ss_exit s = false -> event st (s, d) = ((s', d'), Ret r) ->
    exists regs c, st_regs st = Ok regs /\ new_syscall p regs = Ok c /\ s' = SState r (Some (f_name (c_func c))) true /\ d' = d /\
      (ignored c = true -> r = None) /\ (ignored c = false -> exists c', r = Some c' /\ enter p ns repr_fs opts (st_view st) (st_sp st) regs c = Ok c').
  Proof.
    intros Hx. unfold ss_event, sbind at 1, sget at 1. cbn [fst]. rewrite Hx. unfold ss_enter, ignored, sbind, slift, sput, sget, sret. cbn [fst snd].
    destruct (st_regs st) as [regs|e]; [|discriminate]. destruct (new_syscall p regs) as [c|e] eqn:Ec; [|discriminate]. cbn [fst snd ss_name ss_exit ss_syscall].
    intros H. exists regs, c. split; [reflexivity|]. split; [exact Ec|]. destruct ignore as [f|]; [destruct (f c)|]; cbn [negb fst snd ss_name ss_exit ss_syscall] in H.
    - injection H as <- <- <-. repeat split; discriminate.
    - destruct (enter p ns repr_fs opts (st_view st) (st_sp st) regs c) as [c'|e]; [|discriminate]. cbn [fst snd ss_name ss_exit ss_syscall] in H. injection H as <- <- <-.
      repeat split; try discriminate. now exists c'.
    - destruct (enter p ns repr_fs opts (st_view st) (st_sp st) regs c) as [c'|e]; [|discriminate]. cbn [fst snd ss_name ss_exit ss_syscall] in H. injection H as <- <- <-.
      repeat split; try discriminate. now exists c'.
  Qed.
  Lemma forget_params skip l : forall i, map (fun a => (a_value a, a_type a, a_name a)) (forget skip i l) = map (fun a => (a_value a, a_type a, a_name a)) l.
  Proof. induction l as [|a l IH]; intros i; cbn [forget map]; [reflexivity|]. rewrite IH. f_equal. destruct (existsb _ _); [reflexivity|]. destruct (_ && _); reflexivity. Qed.
  Lemma exit_same c c' t r : exit_ p errorcode strerror r c = Ok (c', t) -> same_call c c' /\ c_result c' <> None.
  Proof.
    unfold exit_. destruct r as [r|e]; cbn [bind]; [|discriminate]. destruct (result_text _ _ _ _ _) as [value x]. intros [= <- _].
    split; [|discriminate]. unfold same_call, params. cbn. rewrite forget_params. auto.
  Qed.
  (** The stop after execve is skipped *)
  Definition exec_skipped (s : sstate) (d : dstate) : bool := ignore_exec_trap && text_eqb (get (ss_name s)) (T "execve") && negb (d_trace_exec d).
  Lemma exit_step st s d s' d' r : ss_exit s = true -> event st (s, d) = ((s', d'), Ret r) ->
    s' = cleared /\
    match ss_syscall s, r with
    | Some c, Some c' => exists t, exit_ p errorcode strerror (st_result st) c = Ok (c', t)
    | None, None => True
    | _, _ => False
    end /\
    (if exec_skipped s d then skip_exec_trap p K fuel id d = (d', Ret tt) else d' = d).
  Proof.
    intros Hx. unfold ss_event, sbind at 1, sget at 1. cbn [fst]. rewrite Hx. unfold ss_exit_, exec_skipped, sbind, slift, sput, sget, sret, sdbg, dget_state. cbn [fst snd].
    destruct (ss_syscall s) as [c|] eqn:Es; cbn [fst snd].
    - destruct (exit_ p errorcode strerror (st_result st) c) as [[c' t]|e] eqn:Ee; [|discriminate]. cbn [fst snd ss_name].
      destruct (_ && _ && _); cbn [fst snd].
      + destruct (skip_exec_trap p K fuel id d) as [d2 [[]|x]]; [|discriminate]. cbn. intros [= <- <- <-]. split; [reflexivity|]. split; [now exists t|reflexivity].
      + cbn. intros [= <- <- <-]. split; [reflexivity|]. split; [now exists t|reflexivity].
    - destruct (_ && _ && _); cbn [fst snd].
      + destruct (skip_exec_trap p K fuel id d) as [d2 [[]|x]]; [|discriminate]. cbn. rewrite Es. intros [= <- <- <-]. auto.
      + cbn. rewrite Es. intros [= <- <- <-]. auto.
  Qed.
  Lemma run_app l1 l2 s : run (l1 ++ l2) s = match run l1 s with Some (s1, rs1) => match run l2 s1 with Some (s2, rs2) => Some (s2, rs1 ++ rs2) | None => None end | None => None end.
  Proof.
    revert s. induction l1 as [|i l1 IH]; intros s; cbn [app run_inputs].
    - destruct (run l2 s) as [[s2 rs2]|]; reflexivity.
    - destruct i as [st|]; [|apply IH]. destruct (event st s) as [s1 [r|x]]; [|reflexivity]. rewrite IH. destruct (run l1 s1) as [[s2 rs1]|]; [|reflexivity].
      destruct (run l2 s2) as [[s3 rs2]|]; reflexivity.
  Qed.
  Lemma run_parity l : forall s d s' d' rs n, run l (s, d) = Some ((s', d'), rs) -> ss_exit s = Nat.odd n ->
    ss_exit s' = Nat.odd (fold_left (fun n i => match i with IStop _ => S n | IClear => O end) l n).
  Proof.
    induction l as [|i l IH]; intros s d s' d' rs n; cbn [run_inputs fold_left]; [intros [= <- <- <-]; auto|]. destruct i as [st|].
    - destruct (event st (s, d)) as [[s1 d1] [r|x]] eqn:E; [|discriminate]. destruct (run l (s1, d1)) as [[[s2 d2] rs2]|] eqn:E2; [|discriminate]. intros [= <- <- <-] Hx.
      apply (IH _ _ _ _ _ (S n) E2). rewrite Nat.odd_succ, <- Nat.negb_odd, <- Hx. destruct (ss_exit s) eqn:Es.
      + apply exit_step in E as (-> & _); auto.
      + apply enter_step in E as (regs & c & _ & _ & -> & _); auto.
    - intros H _. cbn [snd] in H. apply (IH _ _ _ _ _ O H). reflexivity.
  Qed.
  Lemma parity l d s' d' rs : run l (cleared, d) = Some ((s', d'), rs) -> ss_exit s' = Nat.odd (since_clear l).
  Proof. intros H. now apply (run_parity l _ _ _ _ _ O H). Qed.
  Lemma pairs l a b d s' d' rs : Nat.even (since_clear l) = true -> run (l ++ [IStop a; IStop b]) (cleared, d) = Some ((s', d'), rs) ->
    exists before r1 r2 regs c, rs = before ++ [r1; r2] /\ st_regs a = Ok regs /\ new_syscall p regs = Ok c /\
      (if ignored c then r1 = None /\ r2 = None
       else exists c1 c2 t, r1 = Some c1 /\ r2 = Some c2 /\ enter p ns repr_fs opts (st_view a) (st_sp a) regs c = Ok c1 /\
              exit_ p errorcode strerror (st_result b) c1 = Ok (c2, t) /\ same_call c1 c2 /\ c_result c2 <> None).
  Proof.
    intros Hev. rewrite run_app. destruct (run l (cleared, d)) as [[[s1 d1] rs1]|] eqn:E1; [|discriminate]. pose proof (parity _ _ _ _ _ E1) as Hx.
    rewrite <- Nat.negb_even, Hev in Hx. cbn [run_inputs]. destruct (event a (s1, d1)) as [[s2 d2] [r1|x]] eqn:Ea; [|discriminate].
    apply enter_step in Ea as (regs & c & Hr & Hc & -> & -> & Hi & Hn); [|exact Hx].
    destruct (event b (_, d1)) as [[s3 d3] [r2|x]] eqn:Eb; [|discriminate]. intros [= <- <- <-].
    apply exit_step in Eb as (-> & Hb & _); [|reflexivity]. exists rs1, r1, r2, regs, c. split; [reflexivity|]. split; [exact Hr|]. split; [exact Hc|]. cbn [ss_syscall] in Hb.
    destruct (ignored c).
    - rewrite (Hi eq_refl) in *. destruct r2; [contradiction|auto].
    - destruct (Hn eq_refl) as (c1 & -> & H1). destruct r2 as [c2|]; [|contradiction]. destruct Hb as (t & Ht). exists c1, c2, t. pose proof (exit_same _ _ _ _ Ht). tauto.
  Qed.
  Lemma exec_trap l a b d s' d' rs d1 s1 rs1 regs c : Nat.even (since_clear l) = true -> run l (cleared, d) = Some ((s1, d1), rs1) ->
    run (l ++ [IStop a; IStop b]) (cleared, d) = Some ((s', d'), rs) -> st_regs a = Ok regs -> new_syscall p regs = Ok c ->
    (ignore_exec_trap = true -> f_name (c_func c) = T "execve" -> d_trace_exec d1 = false -> skip_exec_trap p K fuel id d1 = (d', Ret tt)) /\
    (ignore_exec_trap = false \/ f_name (c_func c) <> T "execve" \/ d_trace_exec d1 = true -> d' = d1).
  Proof.
    intros Hev E1. rewrite run_app, E1. pose proof (parity _ _ _ _ _ E1) as Hx. rewrite <- Nat.negb_even, Hev in Hx. cbn [run_inputs].
    destruct (event a (s1, d1)) as [[s2 d2] [r1|x]] eqn:Ea; [|discriminate]. apply enter_step in Ea as (regs' & c' & Hr & Hc & -> & -> & Hi & Hn); [|exact Hx].
    destruct (event b (_, d1)) as [[s3 d3] [r2|x]] eqn:Eb; [|discriminate]. intros [= <- <- <-] Hr' Hc'. rewrite Hr in Hr'. injection Hr' as <-. rewrite Hc in Hc'. injection Hc' as <-.
    apply exit_step in Eb as (_ & _ & Hb); [|reflexivity]. unfold exec_skipped in Hb. cbn [ss_name get] in Hb. split.
    - intros -> Hn' Ht. rewrite Hn', text_eqb_refl, Ht in Hb. exact Hb.
    - intros H. assert (ignore_exec_trap && text_eqb (f_name (c_func c')) (T "execve") && negb (d_trace_exec d1) = false) as Hf; [|rewrite Hf in Hb; exact Hb].
      destruct H as [->|[H| ->]]; [reflexivity| |apply andb_false_r]. apply text_eqb_neq in H. now rewrite H, andb_false_r.
  Qed.
  (** What skipping the stop does *)
  Lemma skip_spec d d' q : running_openbsd p = false -> nth_error (d_procs d) id = Some q -> skip_exec_trap p K fuel id d = (d', Ret tt) ->
    exists signum process,
      waitProcessEvent K p fuel (Some (pr_pid q)) true (with_stopped (add_call d (KSyscall id (pr_pid q) 0)) id false) =
        (d', Ret (Some (ProcessSignal signum process))) /\ (signum = 5 \/ signum = 133).
  Proof.
    intros Hb Hq H. unfold skip_exec_trap, dbind at 1 in H. rewrite (syscall_spec K p id 0 d q Hb Hq) in H. cbv zeta in H. change (if 0 =? 5 then 0 else 0) with 0 in H.
    destruct (k_do K _ _); [|discriminate]. unfold dbind at 1 in H.
    assert (exists q', get_proc id (with_stopped (add_call d (KSyscall id (pr_pid q) 0)) id false) = (with_stopped (add_call d (KSyscall id (pr_pid q) 0)) id false, Ret q') /\ pr_pid q' = pr_pid q) as (q' & Hg & Hp').
    { exists (set_stopped false q). split; [|reflexivity]. unfold get_proc, with_stopped. cbn. rewrite nth_upd_nth, Nat.eqb_refl, Hq. reflexivity. }
    rewrite Hg in H. unfold dbind, dret in H. rewrite Hp' in H. destruct (waitSignals _ _ _ _ _ _) as [d2 [ev|x]] eqn:E; [|discriminate]. injection H as <-.
    apply signals_returns in E as (E & s0 & i0 & -> & Hs). exists s0, i0. split; [exact E|]. destruct Hs as [Hs|Hs]; [discriminate|]. cbn in Hs. unfold SIGTRAP in Hs. cbn in Hs. lia.
  Qed.
End Facts.
