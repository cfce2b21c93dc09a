(** * FamilyProofs4: the whole run of strace.py --fork; every history can happen and has one account (C123). *)
From Coq Require Import ZArith List Ascii String Bool Lia.
From Verif Require Import PyBase PyFacts Platform IntModel RegModel SigModel ToolsModel ArgModel DbgModel DbgSpec DbgProofs DbgProofs2 DbgProofs3 DbgProofs4
  SysModel SysSpec StraceModel StraceSpec StraceProofs StraceProofs2 StraceProofs5 StorySpec StoryProofs StoryProofs2 StoryProofs3 FamilySpec FamilyProofs FamilyProofs2 FamilyProofs3.
Import ListNotations.
Open Scope Z_scope.

Section Whole.
  Context (p : platform) (ns : namespace) (repr_fs : list byte -> text) (errorcode : list (Z * text)) (strerror : Z -> text)
          (K : dkernel) (stops : nat -> nat -> stop) (o : soptions) (only : list text) (child : res Z) (pid : Z)
          (Hl : running_linux p = true) (Hpid : pid <> 0).
  Notation tale := (tale p ns repr_fs errorcode strerror o only).
  Notation strace_main := (strace_main p ns repr_fs errorcode strerror K stops o only child).
  Lemma whole_family first asked quiet steps asked' r rounds F : begins o child K pid first asked ->
    happens K stops (all_options o) quiet 1 [Member 0 pid false] (List.length asked) steps asked' -> map fst r = steps ->
    (forall c, In c ((0%nat, pid) :: children steps) -> tale (snd c) (fst c) Between (part (fst c) r)) ->
    (quiet + 3 <= F)%nat -> (List.length steps < rounds)%nat ->
    exists st', strace_main rounds F (StraceModel.start p) = (st', Ret (Some (family_code steps 0))) /\
      rev (t_log st') = first :: List.concat (map snd r) /\ rev (d_calls (t_dbg st')) = asked ++ asked' /\ d_list (t_dbg st') = [].
  Proof.
    intros Hb Hh Hr Ht HF Hrounds. destruct F as [|F]; [lia|].
    destruct (beginning p K o child pid Hl Hpid F first asked Hb) as (st1 & cs & Hrun & Hal & Hasked & Hres & Hsys & Hlog & Ho & Hn).
    assert (exists st2, syscallTrace p ns repr_fs errorcode strerror K stops o only rounds (S F) 0 st1 = (st2, Ret (family_code steps 0)) /\
      d_list (t_dbg st2) = [] /\ d_calls (t_dbg st2) = rev (asked ++ asked') /\ rev (t_log st2) = first :: List.concat (map snd r)) as (st2 & Htrace & L2 & C2 & G2).
    { set (q := Member 0 pid false) in *.
      assert (family (s_trace_exec o) (all_options o) (t_dbg st1) 1 [q] cs) as Hf.
      { destruct Hal as (A & B & (x & X1 & X2 & X3 & X4) & C & D & E & _). split; [|exact (conj C (conj D (conj Ho E)))].
        refine (conj A (conj B (conj Hn (conj _ (conj _ _))))); [constructor; [easy|constructor]..|].
        intros y [<-|[]]. split; [|exact Hpid]. exists x. auto. }
      unfold syscallTrace, prepareProcess. unfold tbind at 1, tbind at 1.
      destruct (resumed_member p K o Hl st1 1 [q] cs q 0 Hf (or_introl eq_refl)) as (d & Hd & Hf1). { exact Hres. }
      change (m_id q) with 0%nat in Hd. rewrite Hd. unfold set_ready. set (st2 := TState _ _ _ _ _).
      assert (forall i, state_of st2 i = cleared) as Hc. { intros i. unfold state_of, st2, set_dbg. cbn [t_sys]. now rewrite Hsys. }
      assert (seen o st2 1 [q] (rev asked) [first]) as Hseen.
      { rewrite Hasked, rev_involutive. refine (conj Hf1 (conj _ Hlog)). split; [|intros; apply Hc]. intros y [<-|[]]. split; [reflexivity|cbn; lia]. }
      destruct (loop_family p ns repr_fs errorcode strerror K stops o only Hl quiet 1 [q] _ steps asked' Hh r st2 (rev asked) [first] 0 (S F) Hr) as (st3 & R3 & D3 & C3 & G3); auto.
      - now rewrite rev_length.
      - intros y [<-|[]]. exists Between. split; [apply Hc|]. exact (Ht (0%nat, pid) (or_introl eq_refl)).
      - intros c Hin. apply Ht. now right.
      - exists st3. split; [now apply R3|]. split; [exact D3|]. split; [now rewrite C3, rev_app_distr|]. rewrite G3, rev_app_distr, rev_involutive. reflexivity. }
    assert (runDebugger p ns repr_fs errorcode strerror K stops o only child rounds (S F) (StraceModel.start p) = (st2, Ret (Some (family_code steps 0)))) as Hrd.
    { unfold runDebugger. unfold tbind in *. destruct (setupDebugger p o (StraceModel.start p)) as [s0 [u|x]]; [|discriminate]. rewrite Hrun, Htrace. reflexivity. }
    exists st2. split; [|split; [exact G2|split; [now rewrite C2, rev_involutive|exact L2]]].
    unfold StraceModel.strace_main, main_of, tbind, ttry. rewrite Hrd. unfold tdbg, quit, dbind, dget_state. rewrite L2. cbn. destruct st2. reflexivity.
  Qed.
End Whole.

(** *** One account *)
Section Unique.
  Context (p : platform) (ns : namespace) (repr_fs : list byte -> text) (errorcode : list (Z * text)) (strerror : Z -> text)
          (o : soptions) (only : list text).
  Notation tale := (tale p ns repr_fs errorcode strerror o only).
  Lemma entry_one pid id a l1 l2 : entry_lines p ns repr_fs o only pid id a l1 -> entry_lines p ns repr_fs o only pid id a l2 -> l1 = l2.
  Proof.
    intros H1 H2. destruct (entry_entered _ _ _ _ _ _ _ _ _ H1) as (s1 & E1). destruct (entry_entered _ _ _ _ _ _ _ _ _ H2) as (s2 & E2).
    now destruct (entered_one _ _ _ _ _ _ _ _ _ _ _ _ E1 E2).
  Qed.
  Lemma tale_one pid id ph r1 : tale pid id ph r1 -> forall r2, tale pid id ph r2 -> map fst r1 = map fst r2 -> r1 = r2.
  Proof.
    induction 1; intros r2 HT E; destruct r2 as [|[s2 l'] r2]; try discriminate; [reflexivity|..]; cbn [map fst] in E; injection E as Es Er; subst s2;
      inversion HT; subst; try (f_equal; now apply IHtale).
    - f_equal; [|now apply IHtale]. f_equal. eapply entry_one; eauto.
    - f_equal; [|now apply IHtale]. f_equal. match goal with A : StorySpec.call_lines _ _ _ _ _ _ _ _ _ _ _ _ _ _, B : StorySpec.call_lines _ _ _ _ _ _ _ _ _ _ _ _ _ _ |- _ => now destruct (call_one _ _ _ _ _ _ _ _ _ _ _ _ _ _ _ _ A B) end.
    - f_equal; [|now apply IHtale]. f_equal. match goal with A : StorySpec.call_lines _ _ _ _ _ _ _ _ _ _ _ _ _ _, B : StorySpec.call_lines _ _ _ _ _ _ _ _ _ _ _ _ _ _ |- _ => now destruct (call_one _ _ _ _ _ _ _ _ _ _ _ _ _ _ _ _ A B) end.
    - f_equal. f_equal. match goal with A : entry_lines _ _ _ _ _ _ _ _ ?x, B : entry_lines _ _ _ _ _ _ _ _ ?y |- _ => pose proof (entry_one _ _ _ _ _ A B) as El end. subst.
      match goal with A : end_lines _ _ _ _ _ _ _ _ _, B : end_lines _ _ _ _ _ _ _ _ _ |- _ => pose proof (end_one _ _ _ _ _ _ _ _ _ _ A B) as Ee end. now apply app_inv_head in Ee.
  Qed.
  Lemma possible_actor born live steps : possible born live steps -> forall s, In s steps -> In (actor s) (map m_id live ++ map fst (children steps)).
  Proof.
    induction 1 as [born|born live q x steps Hq Hp IH|born live q b z steps Hq Hp IH|born live q steps Hq Hp IH|born live q s0 steps Hq Hs Hp IH|born live q kind pid steps Hq Hk Hn Hf Hp IH|born live q m z steps Hq Hm Hp IH];
      intros s Hin; [easy|..]; destruct Hin as [<-|Hin]; cbn [actor children flat_map app];
      try (apply in_app_iff; left; now apply in_map); try (now apply IH).
    - specialize (IH s Hin). rewrite map_app in IH. cbn [map fst m_id] in *. rewrite <- app_assoc in IH. exact IH.
    - specialize (IH s Hin). rewrite in_app_iff in *. destruct IH as [IH|IH]; [left|now right].
      apply in_map_iff in IH as (y & Hy & Hy2). apply without_In in Hy2 as [Hy2 _]. apply in_map_iff. eauto.
  Qed.
  Lemma account_one pid steps r1 r2 : possible 1 [Member 0 pid false] steps -> map fst r1 = steps -> map fst r2 = steps ->
    (forall c, In c ((0%nat, pid) :: children steps) -> tale (snd c) (fst c) Between (part (fst c) r1)) ->
    (forall c, In c ((0%nat, pid) :: children steps) -> tale (snd c) (fst c) Between (part (fst c) r2)) -> r1 = r2.
  Proof.
    intros Hp H1 H2 T1 T2.
    assert (forall s, In s steps -> exists c, In c ((0%nat, pid) :: children steps) /\ fst c = actor s) as Ha.
    { intros s Hs. pose proof (possible_actor _ _ _ Hp s Hs) as H. cbn [map m_id app] in H. destruct H as [<-|H]; [exists (0%nat, pid); split; [now left|reflexivity]|].
      apply in_map_iff in H as (c & <- & Hc). exists c. split; [now right|reflexivity]. }
    assert (forall s, In s steps -> part (actor s) r1 = part (actor s) r2) as Hpart.
    { intros s Hs. destruct (Ha s Hs) as (c & Hc & <-). eapply tale_one; [now apply T1|now apply T2|].
      assert (forall r, map fst (part (fst c) r) = filter (fun s => Nat.eqb (actor s) (fst c)) (map fst r)) as E.
      { intros r. induction r as [|[s1 l1] r IH]; [reflexivity|]. unfold part in *. cbn. destruct (Nat.eqb (actor s1) (fst c)); cbn; now rewrite IH. }
      now rewrite !E, H1, H2. }
    clear T1 T2 Ha Hp. revert r1 r2 H1 H2 Hpart. induction steps as [|s steps IH]; intros [|[s1 l1] r1] [|[s2 l2] r2] H1 H2 Hpart; try discriminate; [reflexivity|].
    cbn [map fst] in *. injection H1 as -> H1. injection H2 as -> H2.
    pose proof (Hpart s (or_introl eq_refl)) as E. rewrite !(part_own s _ _ (actor s) eq_refl) in E. injection E as -> E.
    f_equal. apply IH; auto. intros s' Hs'. destruct (Nat.eq_dec (actor s') (actor s)) as [Es|Es]; [now rewrite Es|].
    specialize (Hpart s' (or_intror Hs')). now rewrite !part_other in Hpart.
  Qed.
End Unique.

(** *** Every history can happen *)
(** What the kernel answers to a request (a report, silence, a new pid or success), and what can be read of the processes afterwards *)
Inductive reply : Type := RTells (m : status_meaning) | RSilent | RNew (pid : Z) | RDone.
Definition scene : Type := list (reply * stop).
Definition done : reply * stop := (RDone, idle).
Definition actors (l : scene) : dkernel :=
  DKernel (fun n pid _ => match fst (nth n l done) with RTells m => Ok (pid, encode m) | _ => Ok (0, 0) end)
          (fun n _ => match fst (nth n l done) with RNew pid => Ok pid | _ => Ok 0 end)
          (fun _ _ => Ok tt).
Definition on_stage (l : scene) : nat -> nat -> stop := fun n _ => snd (nth (pred n) l done).
(** Those that are asked before [id] are silent. *)
Fixpoint wait_scene (id : nat) (m : status_meaning) (x : stop) (live : list member) : scene :=
  match live with
  | [] => []
  | q :: live => if Nat.eqb (m_id q) id then [(RTells m, x)] else (RSilent, idle) :: wait_scene id m x live
  end.
Fixpoint play (born : nat) (live : list member) (steps : list step) : scene :=
  match steps with
  | [] => []
  | SCall id x :: steps => wait_scene id CALL_STOP x live ++ [done] ++ play born live steps
  | SExecuted id b z :: steps => wait_scene id CALL_STOP b live ++ [done; (RTells (Stopped 5), z); done] ++ play born live steps
  | SExecution id :: steps => wait_scene id (TraceEvent 4) idle live ++ [done] ++ play born live steps
  | SSignal id s :: steps => wait_scene id (Stopped s) idle live ++ [done; done] ++ play born live steps
  | SFork id kind new pid :: steps => wait_scene id (TraceEvent kind) idle live ++ [(RNew pid, idle); (RTells (Stopped 19), idle); done; done; done] ++
      play (S born) (live ++ [Member born pid (kind =? 3)]) steps
  | SEnd id m z :: steps => wait_scene id m z live ++ play born (filter (fun r => negb (Nat.eqb (m_id r) id)) live) steps
  end.
Lemma wait_scene_last q m x live : In q live -> exists w, wait_scene (m_id q) m x live = w ++ [(RTells m, x)].
Proof.
  induction live as [|y live IH]; [easy|]. intros [->|H]; cbn [wait_scene]; [rewrite Nat.eqb_refl; now exists []|].
  destruct (Nat.eqb (m_id y) (m_id q)); [now exists []|]. destruct (IH H) as [w ->]. now exists ((RSilent, idle) :: w).
Qed.
Lemma scene_turn q m x live : forall pre rest l, In q live -> NoDup (map m_id live) -> l = pre ++ wait_scene (m_id q) m x live ++ rest ->
  exists w, turn (actors l) live (List.length pre) w (Some (q, m)) /\ List.length w = List.length (wait_scene (m_id q) m x live).
Proof.
  induction live as [|y live IH]; intros pre rest l Hq Hn El; [easy|]. inversion Hn as [|y' l' N1 N2]; subst y' l'. cbn [wait_scene] in *.
  destruct (Nat.eqb (m_id y) (m_id q)) eqn:E.
  - apply Nat.eqb_eq in E. assert (y = q) as -> by exact (NoDup_map_same m_id _ _ _ Hn (or_introl eq_refl) Hq E).
    exists [polling q]. split; [|reflexivity]. constructor. subst l. cbn [k_wait actors]. change (List.length pre) with (0 + List.length pre)%nat. erewrite nth_mid by reflexivity. reflexivity.
  - destruct Hq as [->|Hq]; [now rewrite Nat.eqb_refl in E|].
    destruct (IH (pre ++ [(RSilent, idle)]) rest l Hq N2) as (w & Hw & Hl). { subst l. now rewrite <- app_assoc. }
    rewrite app_length, Nat.add_comm in Hw. exists (polling y :: w). split; [|cbn; now rewrite Hl].
    apply turn_silence with (status := 0); [|exact Hw]. subst l. cbn [k_wait actors]. change (List.length pre) with (0 + List.length pre)%nat. erewrite nth_mid by reflexivity. reflexivity.
Qed.
Lemma scene_awaits q m x live pre rest l : In q live -> NoDup (map m_id live) -> l = pre ++ wait_scene (m_id q) m x live ++ rest ->
  exists w, awaits (actors l) live 1 0 (List.length pre) w q m /\ List.length w = List.length (wait_scene (m_id q) m x live) /\
    on_stage l (List.length w + List.length pre) (m_id q) = x /\
    (forall k y, nth_error rest k = Some y -> nth (k + (List.length w + List.length pre)) l done = y).
Proof.
  intros Hq Hn El. destruct (scene_turn q m x live pre rest l Hq Hn El) as (w & Hw & Hl).
  assert (forall v : list kcall, List.length v = List.length w -> on_stage l (List.length v + List.length pre) (m_id q) = x /\
    (forall k y, nth_error rest k = Some y -> nth (k + (List.length v + List.length pre)) l done = y)) as H.
  { intros v Hv. rewrite Hv, Hl. destruct (wait_scene_last q m x live Hq) as [u Hu]. rewrite Hu in *. split.
    - unfold on_stage. rewrite app_length. cbn [List.length]. replace (pred (List.length u + 1 + List.length pre)) with (0 + List.length (pre ++ u))%nat by (rewrite app_length; lia).
      rewrite El. rewrite <- app_assoc, app_assoc. erewrite nth_mid by reflexivity. reflexivity.
    - intros k y Hk. replace (k + (List.length (u ++ [(RTells m, x)]) + List.length pre))%nat with (k + List.length (pre ++ u ++ [(RTells m, x)]))%nat by (rewrite !app_length; lia).
      rewrite El, (app_assoc pre (u ++ _) rest). now apply nth_mid. }
  destruct live as [|y [|y' live]]; [easy| |].
  - destruct Hq as [->|[]]. exists [hanging q]. cbn [wait_scene] in *. rewrite Nat.eqb_refl in *. split; [|split; [reflexivity|apply H; now rewrite Hl]].
    apply awaits_alone; [reflexivity|]. inversion Hw as [|? ? ? ? Ht|? ? ? ? ? ? Ht Hr]; [|inversion Hr]. exact Ht.
  - exists w. split; [|split; [exact Hl|apply H; reflexivity]]. apply awaits_turn; [cbn; lia|exact Hw].
Qed.
Lemma can_happen opts born live steps : possible born live steps -> NoDup (map m_id live) -> (forall q, In q live -> (m_id q < born)%nat) ->
  forall pre l, l = pre ++ play born live steps -> exists asked, happens (actors l) (on_stage l) opts 0 born live (List.length pre) steps asked.
Proof.
  induction 1 as [born|born live q x steps Hq Hp IH|born live q b z steps Hq Hp IH|born live q steps Hq Hp IH|born live q s steps Hq Hs Hp IH|born live q kind pid steps Hq Hk Hpid Hf Hp IH|born live q m z steps Hq Hm Hp IH];
    intros Hn Hb pre l El; [eexists; constructor|..]; cbn [play] in El.
  - destruct (scene_awaits _ _ _ _ _ _ _ Hq Hn El) as (w & Hw & Hl & Hx & Hnth).
    destruct (IH Hn Hb (pre ++ wait_scene (m_id q) CALL_STOP x live ++ [done]) l) as (asked & Ha). { now rewrite El, <- !app_assoc. }
    eexists. eapply happens_call; [exact Hw|lia|exact Hx|reflexivity|]. rewrite !app_length, <- Hl in Ha. cbn [List.length] in Ha.
    replace (1 + List.length w + List.length pre)%nat with (List.length pre + (List.length w + 1))%nat by lia. exact Ha.
  - destruct (scene_awaits _ _ _ _ _ _ _ Hq Hn El) as (w & Hw & Hl & Hx & Hnth).
    destruct (IH Hn Hb (pre ++ wait_scene (m_id q) CALL_STOP b live ++ [done; (RTells (Stopped 5), z); done]) l) as (asked & Ha). { now rewrite El, <- !app_assoc. }
    eexists. eapply happens_executed with (w := w); [exact Hw|lia|exact Hx|reflexivity| | |reflexivity|].
    + unfold tells. cbn [k_wait actors]. pose proof (Hnth 1%nat _ eq_refl) as E1. cbn [Nat.add] in *. rewrite E1. reflexivity.
    + unfold on_stage. pose proof (Hnth 1%nat _ eq_refl) as E1. cbn [pred Nat.add] in *. rewrite E1. reflexivity.
    + rewrite !app_length, <- Hl in Ha. cbn [List.length] in Ha.
      replace (3 + List.length w + List.length pre)%nat with (List.length pre + (List.length w + 3))%nat by lia. exact Ha.
  - destruct (scene_awaits _ _ _ _ _ _ _ Hq Hn El) as (w & Hw & Hl & Hx & Hnth).
    destruct (IH Hn Hb (pre ++ wait_scene (m_id q) (TraceEvent 4) idle live ++ [done]) l) as (asked & Ha). { now rewrite El, <- !app_assoc. }
    eexists. eapply happens_execution; [exact Hw|lia|reflexivity|]. rewrite !app_length, <- Hl in Ha. cbn [List.length] in Ha.
    replace (1 + List.length w + List.length pre)%nat with (List.length pre + (List.length w + 1))%nat by lia. exact Ha.
  - destruct (scene_awaits _ _ _ _ _ _ _ Hq Hn El) as (w & Hw & Hl & Hx & Hnth).
    destruct (IH Hn Hb (pre ++ wait_scene (m_id q) (Stopped s) idle live ++ [done; done]) l) as (asked & Ha). { now rewrite El, <- !app_assoc. }
    eexists. eapply happens_signal; [exact Hs|exact Hw|lia|reflexivity|reflexivity|]. rewrite !app_length, <- Hl in Ha. cbn [List.length] in Ha.
    replace (2 + List.length w + List.length pre)%nat with (List.length pre + (List.length w + 2))%nat by lia. exact Ha.
  - destruct (scene_awaits _ _ _ _ _ _ _ Hq Hn El) as (w & Hw & Hl & Hx & Hnth).
    destruct (fun a b => IH a b (pre ++ wait_scene (m_id q) (TraceEvent kind) idle live ++ [(RNew pid, idle); (RTells (Stopped 19), idle); done; done; done]) l) as (asked & Ha).
    + rewrite map_app. apply NoDup_app_snoc; [exact Hn|]. cbn [m_id]. intros Hin. apply in_map_iff in Hin as (y & Hy & Hin). apply Hb in Hin. lia.
    + intros y Hy. apply in_app_iff in Hy as [Hy|[<-|[]]]; [apply Hb in Hy; lia|cbn; lia].
    + now rewrite El, <- !app_assoc.
    + eexists. eapply happens_fork with (s := 19); [exact Hk|now right; left|exact Hpid|exact Hf|exact Hw|lia| | |reflexivity|reflexivity|reflexivity|].
      * cbn [k_msg actors]. pose proof (Hnth 0%nat _ eq_refl) as E1. cbn [Nat.add] in *. rewrite E1. reflexivity.
      * unfold tells. cbn [k_wait actors]. pose proof (Hnth 1%nat _ eq_refl) as E1. cbn [Nat.add] in *. rewrite E1. reflexivity.
      * rewrite !app_length, <- Hl in Ha. cbn [List.length] in Ha.
        replace (5 + List.length w + List.length pre)%nat with (List.length pre + (List.length w + 5))%nat by lia. exact Ha.
  - destruct (scene_awaits _ _ _ _ _ _ _ Hq Hn El) as (w & Hw & Hl & Hx & Hnth).
    destruct (fun a b => IH a b (pre ++ wait_scene (m_id q) m z live) l) as (asked & Ha).
    + now apply NoDup_map_filter.
    + intros y Hy. apply without_In in Hy as [Hy _]. now apply Hb.
    + now rewrite El, <- !app_assoc.
    + eexists. eapply happens_end; [exact Hm|exact Hw|lia|exact Hx|]. rewrite app_length, <- Hl, Nat.add_comm in Ha. exact Ha.
Qed.
Lemma family_runs o child pid steps x l : possible 1 [Member 0 pid false] steps -> child = Ok pid -> s_pid o = None -> s_program o = x :: l ->
  exists K stops first asked asked', begins o child K pid first asked /\ happens K stops (all_options o) 0 1 [Member 0 pid false] (List.length asked) steps asked'.
Proof.
  intros Hv Hc Hp Hprog. set (pre := [(RTells (Stopped 5), idle); done; done]). set (s := pre ++ play 1 [Member 0 pid false] steps).
  destruct (can_happen (all_options o) _ _ _ Hv) with (pre := pre) (l := s) as (asked' & Ha);
    [constructor; [easy|constructor]|intros q [<-|[]]; cbn; lia|reflexivity|].
  exists (actors s), (on_stage s). eexists. eexists. exists asked'. split.
  - eapply begins_program; eauto; [intros n; rewrite Hp; discriminate|reflexivity..].
  - exact Ha.
Qed.
Lemma family_attaches o child pid steps : possible 1 [Member 0 pid false] steps -> s_pid o = Some pid ->
  exists K stops first asked asked', begins o child K pid first asked /\ happens K stops (all_options o) 0 1 [Member 0 pid false] (List.length asked) steps asked'.
Proof.
  intros Hv Hp. set (pre := [done; (RTells (Stopped 19), idle); done; done]). set (s := pre ++ play 1 [Member 0 pid false] steps).
  destruct (can_happen (all_options o) _ _ _ Hv) with (pre := pre) (l := s) as (asked' & Ha);
    [constructor; [easy|constructor]|intros q [<-|[]]; cbn; lia|reflexivity|].
  exists (actors s), (on_stage s). eexists. eexists. exists asked'. split.
  - eapply begins_attach; eauto; reflexivity.
  - exact Ha.
Qed.
