(** * FamilyProofs: several processes under the debugger (C123). *)
From Coq Require Import ZArith List Ascii String Bool Lia.
From Verif Require Import PyBase PyFacts Platform IntModel RegModel SigModel ToolsModel ArgModel DbgModel DbgSpec DbgProofs DbgProofs2 DbgProofs3 DbgProofs4
  SysModel SysSpec StraceModel StraceSpec StraceProofs StraceProofs2 StraceProofs5 StorySpec StoryProofs StoryProofs2 FamilySpec.
Import ListNotations.
Open Scope Z_scope.

Lemma without_In q r live : In r (without q live) <-> In r live /\ m_id r <> m_id q.
Proof. unfold without. rewrite filter_In, negb_true_iff, Nat.eqb_neq. reflexivity. Qed.
Lemma NoDup_map_filter {A B} (f : A -> B) g l : NoDup (map f l) -> NoDup (map f (filter g l)).
Proof.
  induction l as [|x l IH]; cbn; [auto|]. intros H. inversion H as [|y m H1 H2]; subst. destruct (g x); cbn; [|auto].
  constructor; [|auto]. intros Hin. apply H1. apply in_map_iff in Hin as (y & <- & Hy). apply filter_In in Hy as [Hy _]. now apply in_map.
Qed.
Lemma NoDup_map_same {A B} (f : A -> B) l x y : NoDup (map f l) -> In x l -> In y l -> f x = f y -> x = y.
Proof.
  induction l as [|z l IH]; cbn; [easy|]. intros H. inversion H as [|u m H1 H2]; subst. intros [->|Hx] [->|Hy] E; auto.
  - exfalso. apply H1. rewrite E. now apply in_map.
  - exfalso. apply H1. rewrite <- E. now apply in_map.
Qed.
Lemma NoDup_app_snoc {A} (l : list A) x : NoDup l -> ~ In x l -> NoDup (l ++ [x]).
Proof.
  induction l as [|y l IH]; cbn; intros H Hx; [constructor; [easy|constructor]|]. inversion H as [|z m H1 H2]; subst. constructor; [|apply IH; auto].
  rewrite in_app_iff. intros [Hy|[Hy|[]]]; [contradiction|]. apply Hx. auto.
Qed.
Lemma filter_all {A} (g : A -> bool) l : (forall x, In x l -> g x = true) -> filter g l = l.
Proof. induction l as [|x l IH]; cbn; [reflexivity|]. intros H. rewrite (H x) by auto. f_equal. apply IH. auto. Qed.

Section Family.
  Context (K : dkernel) (p : platform) (te : bool) (opts : Z) (Hl : running_linux p = true).

  (** [born] processes have been registered, of which [live] are still there; the [n] requests [cs] have been made, the last one first. *)
  Definition known (d : dstate) (q : member) : Prop :=
    exists r, nth_error (d_procs d) (m_id q) = Some r /\ pr_pid r = m_pid q /\ pr_is_thread r = m_thread q /\ pr_is_attached r = true.
  Definition registry (d : dstate) (born : nat) (live : list member) : Prop :=
    d_dict d = map (fun q => (m_pid q, m_id q)) live /\ d_list d = map m_id live /\ List.length (d_procs d) = born /\
    NoDup (map m_id live) /\ NoDup (map m_pid live) /\ (forall q, In q live -> known d q /\ m_pid q <> 0).
  Definition family (d : dstate) (born : nat) (live : list member) (cs : list kcall) : Prop :=
    registry d born live /\ d_sysgood d = true /\ d_trace_exec d = te /\ d_options d = opts /\ d_calls d = cs.

  Definition asked (d : dstate) (w : list kcall) : dstate := fold_left add_call w d.
  Lemma asked_app d w w' : asked d (w ++ w') = asked (asked d w) w'.
  Proof. apply fold_left_app. Qed.
  Lemma asked_same d w : d_procs (asked d w) = d_procs d /\ d_dict (asked d w) = d_dict d /\ d_list (asked d w) = d_list d /\ d_sysgood (asked d w) = d_sysgood d /\
    d_trace_exec (asked d w) = d_trace_exec d /\ d_options (asked d w) = d_options d /\ d_calls (asked d w) = rev w ++ d_calls d.
  Proof.
    revert d. induction w as [|c w IH]; intros d; cbn [asked fold_left]; [repeat split|]. fold (asked (add_call d c) w).
    destruct (IH (add_call d c)) as (A & B & C & D & E & F & G). rewrite A, B, C, D, E, F, G. cbn. rewrite <- app_assoc. repeat split.
  Qed.
  Lemma registry_same d d' born live : d_procs d' = d_procs d -> d_dict d' = d_dict d -> d_list d' = d_list d -> registry d born live -> registry d' born live.
  Proof.
    intros E1 E2 E3 (A & B & C & D & E & F). unfold registry, known. rewrite E1, E2, E3. refine (conj A (conj B (conj C (conj D (conj E F))))).
  Qed.
  Lemma registry_asked d born live w : registry d born live -> registry (asked d w) born live.
  Proof. destruct (asked_same d w) as (A & B & C & _). now apply registry_same. Qed.
  Lemma family_asked d born live cs w : family d born live cs -> family (asked d w) born live (rev w ++ cs).
  Proof.
    intros (A & B & C & D & E). destruct (asked_same d w) as (P1 & P2 & P3 & P4 & P5 & P6 & P7). split; [now apply registry_asked|].
    rewrite P4, P5, P6, P7, E. auto.
  Qed.
  Lemma family_call d born live cs c : family d born live cs -> family (add_call d c) born live (c :: cs).
  Proof. exact (family_asked d born live cs [c]). Qed.
  Lemma upd_length {A} i (f : A -> A) l : List.length (upd_nth i f l) = List.length l.
  Proof. revert i. induction l as [|x l IH]; intros [|i]; cbn; auto. Qed.
  Lemma family_stopped d born live cs id b : family d born live cs -> family (with_stopped d id b) born live cs.
  Proof.
    intros ((A & B & C & D & E & F) & G). split; [|exact G]. refine (conj A (conj B (conj _ (conj D (conj E _))))).
    - cbn. now rewrite upd_length.
    - intros q Hq. destruct (F q Hq) as ((r & R1 & R2 & R3 & R4) & R5). split; [|exact R5]. unfold known. cbn. rewrite nth_upd_nth, R1.
      destruct (Nat.eqb (m_id q) id); eexists; (split; [reflexivity|]); auto.
  Qed.

  Lemma dict_get d born live q : registry d born live -> In q live -> dget Z.eqb (m_pid q) (d_dict d) = Some (m_id q).
  Proof.
    intros (A & _ & _ & _ & E & _) Hq. rewrite A. apply dget_NoDup_In; [intros; apply Z.eqb_eq| |].
    - rewrite map_map. cbn. exact E.
    - apply in_map_iff. exists q. auto.
  Qed.
  (** One waitpid() for a process *)
  Lemma one_waitpid d born live q (blocking : bool) : registry d born live -> In q live ->
    waitpid_ K p (m_pid q) blocking d =
      let c := if blocking then hanging q else polling q in
      (add_call d c,
       match k_wait K (List.length (d_calls d)) (m_pid q) (if blocking then wall q else Z.lor 1 (wall q)) with
       | Ok (pid, status) => if (blocking || negb (pid =? 0)) && negb (pid =? m_pid q) then Raise (XErr EDebuggerError) else Ret (pid, status)
       | Err e => Raise (XErr e)
       end).
  Proof.
    intros Hr Hq. pose proof (dict_get _ _ _ _ Hr Hq) as Hd. destruct Hr as (A & B & C & D & E & F). destruct (F q Hq) as ((r & R1 & R2 & R3 & R4) & R5).
    apply Z.eqb_neq in R5. unfold waitpid_. rewrite R5. cbn [negb andb]. unfold dbind, dget_state. rewrite Hd. unfold get_proc. rewrite R1, R3.
    unfold has_ptrace_events, thread_trace_flags. rewrite Hl. cbn [orb negb]. rewrite andb_false_r. unfold os_waitpid, hanging, polling, wall.
    assert ((if m_thread q then Z.lor (if blocking then 0 else WNOHANG) 1073741824 else if blocking then 0 else WNOHANG) =
            (if blocking then if m_thread q then 1073741824 else 0 else Z.lor 1 (if m_thread q then 1073741824 else 0))) as ->.
    { destruct (m_thread q), blocking; reflexivity. }
    cbv zeta. destruct (k_wait _ _ _ _) as [[pid status]|e]; [|destruct blocking; reflexivity].
    rewrite andb_true_r. destruct blocking; cbn [orb]; destruct (_ && _); reflexivity.
  Qed.
  Definition finish (r : dstate * out event) : dstate * out (option event) :=
    match r with (d, Ret ev) => (d, Ret (Some ev)) | (d, Raise x) => (d, Raise x) end.
  (** The process has something to report *)
  Lemma wait_told d born live q (blocking : bool) m f : registry d born live -> In q live ->
    k_wait K (List.length (d_calls d)) (m_pid q) (if blocking then wall q else Z.lor 1 (wall q)) = Ok (m_pid q, encode m) ->
    wait K p (S f) (QPid (m_pid q) blocking) d = finish (processStatus K p f (m_id q) (encode m) (add_call d (if blocking then hanging q else polling q))).
  Proof.
    intros Hr Hq Hk. cbn [wait]. unfold wait_event_pid_. rewrite (one_waitpid d born live q blocking Hr Hq). cbv zeta. rewrite Hk, Z.eqb_refl, andb_false_r.
    destruct Hr as (A & B & C & D & E & F). assert (registry d born live) as Hr by exact (conj A (conj B (conj C (conj D (conj E F))))).
    destruct (F q Hq) as (_ & R5). apply Z.eqb_neq in R5. rewrite R5, andb_false_r.
    assert (dget Z.eqb (m_pid q) (d_dict (add_call d (if blocking then hanging q else polling q))) = Some (m_id q)) as ->. { exact (dict_get _ _ _ _ Hr Hq). }
    unfold processStatus, dbind, dret, finish. reflexivity.
  Qed.
  Lemma wait_silent d born live q status f : registry d born live -> In q live ->
    k_wait K (List.length (d_calls d)) (m_pid q) (Z.lor 1 (wall q)) = Ok (0, status) ->
    wait K p (S f) (QPid (m_pid q) false) d = (add_call d (polling q), Ret None).
  Proof.
    intros Hr Hq Hk. cbn [wait]. unfold wait_event_pid_. rewrite (one_waitpid d born live q false Hr Hq). cbv zeta. rewrite Hk. reflexivity.
  Qed.
  Lemma poll_turn l n w r : turn K l n w r -> forall d born live f, registry d born live -> incl l live -> List.length (d_calls d) = n ->
    poll (wait K p (S f)) (map m_pid l) d =
      match r with
      | None => (asked d w, Ret None)
      | Some (q, m) => finish (processStatus K p f (m_id q) (encode m) (asked d w))
      end.
  Proof.
    induction 1 as [n|q l n m Hk|q l n status w r Hk Ht IH]; intros d born live f Hr Hi Hn; cbn [map poll]; [reflexivity| |].
    - unfold dbind. rewrite (wait_told d born live q false m f Hr) by (rewrite ?Hn; auto; apply Hi; now left).
      cbn [asked fold_left]. unfold finish. destruct (processStatus _ _ _ _ _ _) as [d' [ev|x]]; reflexivity.
    - unfold dbind. rewrite (wait_silent d born live q status f Hr) by (rewrite ?Hn; auto; apply Hi; now left).
      cbn [asked fold_left]. fold (asked (add_call d (polling q)) w). apply (IH _ born live).
      + now apply (registry_asked d born live [polling q]).
      + intros x Hx. apply Hi. now right.
      + cbn. now rewrite Hn.
  Qed.
  Lemma turn_length l n w : turn K l n w None -> List.length w = List.length l.
  Proof. intros H. remember None as r. induction H; cbn; auto; try discriminate. Qed.
  Lemma awaits_In live pause k n w q m : awaits K live pause k n w q m -> In q live.
  Proof.
    induction 1 as [pause n q m -> _|pause n w q m _ Ht|]; [now left| |assumption].
    remember (Some (q, m)) as r eqn:Er. revert q m Er. induction Ht; intros q0 m0 Er; try discriminate.
    - injection Er as -> ->. now left.
    - right. eapply IHHt; eauto.
  Qed.
  Lemma wait_any d born live pause k n w q m : awaits K live pause k n w q m -> forall F, registry d born live -> List.length (d_calls d) = n -> (k + 3 <= F)%nat ->
    exists f, wait K p F (QAny pause true) d = finish (processStatus K p (S f) (m_id q) (encode m) (asked d w)).
  Proof.
    intros H. revert d. induction H as [pause n q m -> Ht|pause n w q m Hn Ht|pause pause' k n w w' q m Hn Ht Hp Hs Hw IH]; intros d F Hr Hc HF.
    - destruct F as [|[|[|f]]]; try lia. exists f. pose proof Hr as (A & _).
      change (wait K p (S (S (S f))) (QAny pause true) d) with (wait_any_ K (wait K p (S (S f))) pause true d). unfold wait_any_, dbind at 1, dget_state. rewrite A. cbn [map fst].
      rewrite (wait_told d born [q] q true m (S f) Hr) by (rewrite ?Hc; auto; now left). reflexivity.
    - destruct F as [|[|[|f]]]; try lia. exists f. pose proof Hr as (A & _). 
      change (wait K p (S (S (S f))) (QAny pause true) d) with (wait_any_ K (wait K p (S (S f))) pause true d).
      unfold wait_any_, dbind at 1, dget_state. rewrite A, map_map. cbn [fst].
      assert (exists a b l, map (fun x => m_pid x) live = a :: b :: l) as (a & b & l & El).
      { destruct live as [|a [|b l]]; cbn in Hn; try lia. cbn. eauto. }
      rewrite El. rewrite <- El. unfold dbind. change (map (fun x => m_pid x) live) with (map m_pid live).
      rewrite (poll_turn live n w (Some (q, m)) Ht d born live (S f) Hr) by (auto; apply incl_refl). unfold finish.
      destruct (processStatus _ _ _ _ _ _) as [d' [ev|x]]; reflexivity.
    - destruct F as [|F]; [lia|]. pose proof Hr as (A & _).
      change (wait K p (S F) (QAny pause true) d) with (wait_any_ K (wait K p F) pause true d).
      unfold wait_any_, dbind at 1, dget_state. rewrite A, map_map. cbn [fst].
      assert (exists a b l, map (fun x => m_pid x) live = a :: b :: l) as (a & b & l & El).
      { destruct live as [|a [|b l]]; cbn in Hn; try lia. cbn. eauto. }
      rewrite El. rewrite <- El. unfold dbind. change (map (fun x => m_pid x) live) with (map m_pid live).
      destruct F as [|F]; [lia|]. rewrite (poll_turn live n w None Ht d born live F Hr) by (auto; apply incl_refl). cbn [negb]. cbv zeta. rewrite <- Hp.
      unfold request. destruct (asked_same d w) as (P1 & P2 & P3 & P4 & P5 & P6 & P7).
      assert (List.length (d_calls (asked d w)) = (List.length w + n)%nat) as Ew. { rewrite P7, app_length, rev_length, Hc. reflexivity. }
      rewrite Ew, Hs.
      destruct (IH (add_call (asked d w) (KSleep pause')) (S F)) as (f & Hf).
      + apply (registry_asked (asked d w) born live [KSleep pause']). now apply registry_asked.
      + cbn [add_call d_calls List.length]. rewrite Ew. reflexivity.
      + lia.
      + exists f. rewrite Hf, asked_app. reflexivity.
  Qed.

  (** *** Events *)
  Lemma family_member d born live cs q : family d born live cs -> In q live -> known d q.
  Proof. intros ((_ & _ & _ & _ & _ & F) & _) Hq. now apply F. Qed.
  Lemma resume_member d born live cs q s : family d born live cs -> In q live -> goes_on K (List.length cs) q (filterSignal s) ->
    syscall K p (m_id q) s d = (with_stopped (add_call d (going_on q (filterSignal s))) (m_id q) false, Ret tt).
  Proof.
    intros Hf Hq Hk. destruct (family_member _ _ _ _ _ Hf Hq) as (r & R1 & R2 & _). destruct Hf as (_ & _ & _ & _ & F).
    unfold syscall, dbind at 1, get_proc. rewrite R1.
    assert (running_openbsd p = false) as ->.
    { revert Hl. unfold running_linux, running_openbsd. destruct (p_os p); [reflexivity|discriminate..]. }
    unfold dbind, request. rewrite F, R2. unfold goes_on in Hk. rewrite Hk. reflexivity.
  Qed.
  Lemma signal_status f id s d : 0 <= s < 256 -> processStatus K p f id (encode (Stopped s)) d = (with_stopped d id true, Ret (ProcessSignal s id)).
  Proof. intros Hs. destruct (encode_classes (Stopped s) Hs) as (E1 & E2 & E3). rewrite status_stop by auto. now rewrite E3. Qed.
  Section Awaited.
    Context (d : dstate) (born : nat) (live : list member) (cs : list kcall) (k : nat) (w : list kcall) (q : member)
            (Hf : family d born live cs) (F : nat) (HF : (k + 3 <= F)%nat).
    Lemma any_call : awaits K live 1 k (List.length cs) w q CALL_STOP ->
      waitSyscall K p F None d = (with_stopped (asked d w) (m_id q) true, Ret (ProcessSignal 133 (m_id q))).
    Proof.
      intros Hw. pose proof Hf as (A & B & C & D & E). unfold waitSyscall, dbind at 1, dget_state. rewrite B.
      unfold waitSignals, waitSignals_, wait_event_query, dbind.
      destruct (wait_any d born live 1 k _ w q CALL_STOP Hw F A ltac:(now rewrite E) HF) as (f & ->). unfold CALL_STOP. rewrite signal_status by lia. reflexivity.
    Qed.
    Lemma any_signal s : awaits K live 1 k (List.length cs) w q (Stopped s) -> 1 <= s < 128 ->
      waitSyscall K p F None d = (with_stopped (asked d w) (m_id q) true, Raise (XEvent (ProcessSignal s (m_id q)))).
    Proof.
      intros Hw Hs. pose proof Hf as (A & B & C & D & E). unfold waitSyscall, dbind at 1, dget_state. rewrite B.
      unfold waitSignals, waitSignals_, wait_event_query, dbind.
      destruct (wait_any d born live 1 k _ w q _ Hw F A ltac:(now rewrite E) HF) as (f & ->). rewrite signal_status by lia. cbn [finish].
      change (Z.lor SIGTRAP 128) with 133. cbn [existsb]. destruct (Z.eqb_spec s 133); [lia|]. reflexivity.
    Qed.
    Lemma any_execution : awaits K live 1 k (List.length cs) w q (TraceEvent 4) ->
      waitSyscall K p F None d = (asked d w, Raise (XEvent (ProcessExecution (m_id q)))).
    Proof.
      intros Hw. pose proof Hf as (A & B & C & D & E). unfold waitSyscall, dbind at 1, dget_state. rewrite B.
      unfold waitSignals, waitSignals_, wait_event_query, dbind.
      destruct (wait_any d born live 1 k _ w q _ Hw F A ltac:(now rewrite E) HF) as (f & ->). rewrite status_exec by (auto; reflexivity). reflexivity.
    Qed.
  End Awaited.
  Lemma member_trap d born live cs q f : family d born live cs -> In q live -> tells K (List.length cs) q (Stopped 5) ->
    waitSignals K p (S f) [SIGTRAP; Z.lor SIGTRAP 0x80] (Some (m_pid q)) d = (with_stopped (add_call d (hanging q)) (m_id q) true, Ret (ProcessSignal 5 (m_id q))).
  Proof.
    intros (A & B & C & D & E) Hq Hk. unfold waitSignals, waitSignals_, wait_event_query, dbind.
    rewrite (wait_told d born live q true (Stopped 5) f A Hq) by (rewrite E; exact Hk). rewrite signal_status by lia. reflexivity.
  Qed.
  (** The end of a process *)
  Lemma list_without q live : NoDup (map m_id live) -> In q live -> remove_first (m_id q) (map m_id live) = map m_id (without q live).
  Proof.
    induction live as [|r live IH]; cbn; [easy|]. intros H. inversion H as [|x l H1 H2]; subst. destruct (Nat.eqb_spec (m_id r) (m_id q)) as [E|E]; cbn [negb].
    - intros _. f_equal. symmetry. apply filter_all. intros x Hx. apply negb_true_iff, Nat.eqb_neq. intros E2. apply H1. rewrite E, <- E2. now apply in_map.
    - intros [->|Hq]; [congruence|]. cbn. f_equal. now apply IH.
  Qed.
  Lemma dict_without q live : NoDup (map m_id live) -> NoDup (map m_pid live) -> In q live ->
    ddel Z.eqb (m_pid q) (map (fun q => (m_pid q, m_id q)) live) = map (fun q => (m_pid q, m_id q)) (without q live).
  Proof.
    intros Hi Hp Hq. induction live as [|r live IH]; cbn; [easy|]. inversion Hi as [|x l H1 H2]; subst. inversion Hp as [|x l H3 H4]; subst.
    destruct (Z.eqb_spec (m_pid q) (m_pid r)) as [E|E].
    - assert (q = r) as <-. { destruct Hq as [->|Hq]; [reflexivity|]. exfalso. apply H3. rewrite <- E. now apply in_map. }
      rewrite Nat.eqb_refl. cbn [negb]. f_equal. symmetry. apply filter_all. intros x Hx. apply negb_true_iff, Nat.eqb_neq. intros E2. apply H1. rewrite <- E2. now apply in_map.
    - destruct Hq as [->|Hq]; [congruence|]. destruct (Nat.eqb_spec (m_id r) (m_id q)) as [E2|E2]; cbn [negb].
      + exfalso. apply H1. rewrite E2. now apply in_map.
      + cbn [map]. f_equal. now apply IH.
  Qed.
  Lemma family_gone d born live cs q r : family d born live cs -> In q live -> nth_error (d_procs d) (m_id q) = Some r -> pr_pid r = m_pid q -> pr_is_attached r = true ->
    family (gone d (m_id q) r) born (without q live) cs.
  Proof.
    intros ((A & B & C & D & E & F) & G) Hq R1 R2 R3. unfold gone. rewrite R3, R2. split; [|exact G]. unfold registry. cbn.
    rewrite A, B, dict_without, list_without, !upd_length by assumption. refine (conj eq_refl (conj eq_refl (conj C (conj _ (conj _ _))))).
    - now apply NoDup_map_filter.
    - now apply NoDup_map_filter.
    - intros x Hx. apply without_In in Hx as [Hx Hn]. destruct (F x Hx) as ((y & Y1 & Y2) & Y3). split; [|exact Y3]. exists y. cbn.
      rewrite !nth_upd_nth. apply Nat.eqb_neq in Hn. rewrite Hn. auto.
  Qed.
  Lemma any_end d born live cs k w q m F : family d born live cs -> (k + 3 <= F)%nat -> deadly m -> awaits K live 1 k (List.length cs) w q m ->
    exists d', waitSyscall K p F None d = (d', Raise (XEvent (ProcessExit (m_id q) (exit_signal m) (exit_code m)))) /\
      family d' born (without q live) (rev w ++ cs) /\ (exists r, nth_error (d_procs d') (m_id q) = Some r /\ pr_pid r = m_pid q).
  Proof.
    intros Hf HF Hm Hw. pose proof Hf as (A & B & C & D & E). pose proof (awaits_In _ _ _ _ _ _ _ Hw) as Hq.
    pose proof (family_asked d born live cs w Hf) as Hf1. destruct (family_member _ _ _ _ _ Hf1 Hq) as (r & R1 & R2 & R3 & R4).
    exists (gone (asked d w) (m_id q) r). split; [|split].
    - unfold waitSyscall, dbind at 1, dget_state. rewrite B. unfold waitSignals, waitSignals_, wait_event_query, dbind.
      destruct (wait_any d born live 1 k _ w q _ Hw F A ltac:(now rewrite E) HF) as (f & ->).
      destruct m as [code|s core|s|ev]; [| |contradiction..].
      + destruct (encode_classes (Exited code) Hm) as (E1 & E2). rewrite (status_exit_eq K p (S f) (m_id q) _ r) by assumption. rewrite E2. reflexivity.
      + pose proof (encode_classes (Killed s core) Hm) as E1. cbn [deadly valid] in Hm. rewrite (status_killed_eq K p (S f) (m_id q) _ r) by (auto; rewrite E1; lia). rewrite E1. reflexivity.
    - now apply family_gone.
    - unfold gone. rewrite R4. cbn. eexists. rewrite !nth_upd_nth, Nat.eqb_refl, R1. cbn. split; [reflexivity|exact R2].
  Qed.
  (** A new process *)
  Lemma any_fork d born live cs k w q kind pid s F : opts <> 0 -> family d born live cs -> (k + 3 <= F)%nat -> In kind [1; 2; 3] -> In s [5; 19] -> pid <> 0 -> ~ In pid (map m_pid live) ->
    (forall x, In x live -> (m_id x < born)%nat) ->
    awaits K live 1 k (List.length cs) w q (TraceEvent kind) -> k_msg K (List.length w + List.length cs) (m_pid q) = Ok pid ->
    let new := Member born pid (kind =? 3) in
    tells K (1 + List.length w + List.length cs) new (Stopped s) -> k_do K (2 + List.length w + List.length cs) (KSetOptions born pid opts) = Ok tt ->
    exists d', waitSyscall K p F None d = (d', Raise (XEvent (NewProcessEvent born))) /\
      family d' (S born) (live ++ [new]) (KSetOptions born pid opts :: hanging new :: KEventMsg (m_id q) (m_pid q) :: rev w ++ cs) /\
      (exists r, nth_error (d_procs d') born = Some r /\ pr_parent r = Some (m_id q)).
  Proof.
    intros Hopts Hf HF Hkind Hs Hpid Hnew Hborn Hw Hmsg new Htell Hset. pose proof Hf as (A & B & C & D & E). pose proof (awaits_In _ _ _ _ _ _ _ Hw) as Hq.
    pose proof (family_asked d born live cs w Hf) as Hf1. destruct (family_member _ _ _ _ _ Hf1 Hq) as (r & R1 & R2 & R3 & R4).
    unfold waitSyscall, dbind at 1, dget_state. rewrite B. unfold waitSignals, waitSignals_, wait_event_query, dbind.
    destruct (wait_any d born live 1 k _ w q _ Hw F A ltac:(now rewrite E) HF) as (f & ->).
    assert (encode (TraceEvent kind) mod 256 = 127 /\ encode (TraceEvent kind) / 65536 = kind) as (E1 & E2).
    { apply (encode_classes (TraceEvent kind)). cbn [valid]. cbn in Hkind. lia. }
    rewrite (status_new K p (S f) (m_id q) _ r) by (auto; rewrite E2; cbn in Hkind; lia). cbv zeta.
    assert (List.length (d_calls (asked d w)) = (List.length w + List.length cs)%nat) as Ew. { destruct (asked_same d w) as (_ & _ & _ & _ & _ & _ & ->). now rewrite app_length, rev_length, E. }
    rewrite Ew, R2, Hmsg, E2. set (d1 := add_call (asked d w) (KEventMsg (m_id q) (m_pid q))).
    assert (family d1 born live (KEventMsg (m_id q) (m_pid q) :: rev w ++ cs)) as Hf2 by (apply family_call; exact Hf1).
    destruct Hf2 as ((A1 & A2 & A3 & A4 & A5 & A6) & B2 & C2 & D2 & E3).
    rewrite add_eq; [|unfold dmem; replace (dget Z.eqb pid (d_dict d1)) with (@None nat); [reflexivity|]|discriminate].
    2:{ symmetry. apply dget_None; [intros; apply Z.eqb_eq|]. rewrite A1, map_map. exact Hnew. }
    cbv zeta. rewrite A3. unfold DbgProofs4.start. set (d2 := enrol d1 _).
    assert (family d2 (S born) (live ++ [new]) (KEventMsg (m_id q) (m_pid q) :: rev w ++ cs)) as Hf2.
    { split; [|exact (conj B2 (conj C2 (conj D2 E3)))]. unfold registry, d2, enrol. cbn [d_dict d_list d_procs set_reg set_procs].
      rewrite A1, A2, A3, dset_keys_new, !map_app, app_length; [|intros; apply Z.eqb_eq|rewrite map_map; exact Hnew].
      refine (conj eq_refl (conj eq_refl (conj _ (conj _ (conj _ _))))); cbn [map List.length].
      - rewrite A3. lia.
      - apply NoDup_app_snoc; [exact A4|]. intros Hin. apply in_map_iff in Hin as (x & Hx1 & Hx2). specialize (Hborn x Hx2). unfold new in Hx1. cbn in Hx1. lia.
      - apply NoDup_app_snoc; [exact A5|exact Hnew].
      - intros x Hx. apply in_app_iff in Hx as [Hx|[<-|[]]].
        + destruct (A6 x Hx) as ((y & Y1 & Y2) & Y3). split; [|exact Y3]. exists y. split; [|exact Y2]. cbn [d_procs set_reg set_procs]. rewrite nth_error_app1; [exact Y1|]. apply nth_error_Some. congruence.
        + split; [|exact Hpid]. unfold known. cbn [d_procs set_reg set_procs m_id new]. eexists. rewrite nth_error_app2, A3, Nat.sub_diag by lia. repeat split. }
    assert (In new (live ++ [new])) as Hin by (apply in_app_iff; right; now left).
    pose proof Hf2 as (Hreg2 & B3 & C3 & D3 & E4).
    unfold handshake, waitSignals, waitSignals_, wait_event_query, dbind.
    change pid with (m_pid new) at 1.
    rewrite (wait_told d2 (S born) (live ++ [new]) new true (Stopped s) f Hreg2 Hin).
    2:{ rewrite E4. cbn [List.length]. rewrite app_length, rev_length. exact Htell. }
    rewrite signal_status by (cbn in Hs; lia). cbn [finish].
    assert (existsb (Z.eqb s) [SIGTRAP; SIGSTOP] = true) as ->. { cbn in Hs. destruct Hs as [<-|[<-|[]]]; reflexivity. }
    cbn [orb]. unfold dret. cbv beta iota.
    set (d3 := with_stopped _ (m_id new) true).
    assert (family d3 (S born) (live ++ [new]) (hanging new :: KEventMsg (m_id q) (m_pid q) :: rev w ++ cs)) as Hf3 by (apply family_stopped, family_call; exact Hf2).
    pose proof Hf3 as (Hreg3 & B4 & C4 & D4 & E5). rewrite D4. unfold has_ptrace_events at 1. rewrite Hl. apply Z.eqb_neq in Hopts. rewrite Hopts. cbn [orb negb andb].
    unfold setoptions, dbind, get_proc. destruct (family_member _ _ _ _ _ Hf3 Hin) as (y & Y1 & Y2 & Y3 & Y4). cbn [m_id new] in Y1. rewrite Y1.
    rewrite (linux_events p Hl). cbn [negb]. unfold request. rewrite E5. cbn [List.length]. rewrite app_length, rev_length, Y2. cbn [m_pid new].
    change (S (S (List.length w + List.length cs))) with (2 + List.length w + List.length cs)%nat. rewrite Hset.
    eexists. split; [reflexivity|]. split; [apply family_call; exact Hf3|].
    cbn [d_procs add_call]. unfold d3, with_stopped. cbn [d_procs add_call set_procs m_id new]. unfold d2, enrol. cbn [d_procs set_reg set_procs].
    rewrite nth_upd_nth, Nat.eqb_refl, nth_error_app2, A3, Nat.sub_diag by lia. eexists. split; reflexivity.
  Qed.
End Family.
