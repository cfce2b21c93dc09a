From Coq Require Import ZArith List Ascii String Bool Lia.
From Verif Require Import PyBase PyFacts Platform DbgModel DbgSpec DbgProofs DbgProofs2.
Import ListNotations.
Open Scope Z_scope.

(** ** What elementary changes preserve *)
Definition same_identity (q q' : proc) : Prop :=
  pr_pid q' = pr_pid q /\ pr_was_attached q' = pr_was_attached q /\ pr_is_thread q' = pr_is_thread q /\ pr_parent q' = pr_parent q /\
  (pr_running q' = true -> pr_running q = true) /\ (pr_is_attached q' = true -> pr_is_attached q = true).
Lemma identity_refl q : same_identity q q.
Proof. unfold same_identity. tauto. Qed.
Lemma identity_trans q1 q2 q3 : same_identity q1 q2 -> same_identity q2 q3 -> same_identity q1 q3.
Proof. unfold same_identity. intros (A & B & C & D & E & F) (A' & B' & C' & D' & E' & F'). repeat split; try congruence; tauto. Qed.
Lemma upd_keep st id f i q : (forall q, same_identity q (f q)) -> nth_error (d_procs st) i = Some q ->
  exists q', nth_error (d_procs (upd st id f)) i = Some q' /\ same_identity q q'.
Proof.
  intros Hf Hq. cbn. rewrite nth_upd_nth. destruct (i =? id)%nat; rewrite Hq; cbn; eexists; split; eauto using identity_refl.
Qed.
Ltac ident := intros; unfold same_identity; cbn; repeat split; congruence.
Lemma tick_keep P st st' i q : tick P st st' -> nth_error (d_procs st) i = Some q ->
  exists q', nth_error (d_procs st') i = Some q' /\ same_identity q q'.
Proof.
  intros Ht Hq. destruct Ht; cbn [d_procs add_call drop set_reg] in *; try (apply upd_keep; [ident|exact Hq]); eauto using identity_refl.
  exists q. split; [|apply identity_refl]. cbn. rewrite nth_error_app1; [exact Hq|]. apply nth_error_Some. congruence.
Qed.
Lemma ticks_keep P st st' i q : ticks P st st' -> nth_error (d_procs st) i = Some q ->
  exists q', nth_error (d_procs st') i = Some q' /\ same_identity q q'.
Proof.
  intros Ht. revert q. induction Ht as [|st st1 st2 H1 _ IH]; intros q Hq; [eauto using identity_refl|].
  destruct (tick_keep _ _ _ _ _ H1 Hq) as (q1 & Hq1 & I1). destruct (IH _ Hq1) as (q2 & Hq2 & I2).
  exists q2. split; eauto using identity_trans.
Qed.
Lemma ticks_length P st st' : ticks P st st' -> (List.length (d_procs st) <= List.length (d_procs st'))%nat.
Proof.
  intros Ht. destruct (d_procs st) eqn:E using rev_ind; [cbn; lia|]. rewrite app_length; cbn.
  assert (nth_error (d_procs st) (List.length l) = Some x) as H by (rewrite E, nth_error_app2, Nat.sub_diag by lia; reflexivity).
  destruct (ticks_keep _ _ _ _ _ Ht H) as (q' & Hq' & _). assert (nth_error (d_procs st') (List.length l) <> None) as Hs by congruence.
  apply nth_error_Some in Hs. lia.
Qed.
Lemma remove_first_in id i l : In i (remove_first id l) -> In i l.
Proof. induction l as [|x l IH]; cbn; [auto|]. destruct (Nat.eqb x id); cbn; tauto. Qed.
Lemma tick_unreg P st st' i : tick P st st' -> (i < List.length (d_procs st))%nat -> In i (d_list st') -> In i (d_list st).
Proof.
  intros Ht Hi Hin. destruct Ht; cbn in *; eauto using remove_first_in.
  rewrite in_app_iff in Hin. cbn in Hin. destruct Hin as [Hin|[<-|[]]]; [exact Hin|lia].
Qed.
Lemma ticks_unreg P st st' i : ticks P st st' -> (i < List.length (d_procs st))%nat -> In i (d_list st') -> In i (d_list st).
Proof.
  intros Ht. induction Ht as [|st st1 st2 H1 _ IH]; [auto|]. intros Hi Hin.
  eapply tick_unreg; eauto. apply IH; auto. pose proof (ticks_length _ _ _ (ticks_one _ _ _ H1)). lia.
Qed.

(** Requests only accumulate. *)
Definition allowed (P : dstate -> kcall -> Prop) (c : kcall) : Prop := (exists s, P s c) \/ exists id pid, c = KDetach id pid.
Lemma tick_calls P st st' : tick P st st' -> exists new, made st st' new /\ forall c, In c new -> allowed P c.
Proof.
  intros Ht. destruct Ht; try (exists []; split; [reflexivity|intros c []]).
  - exists [c]. split; [reflexivity|]. intros c' [<-|[]]. left. eauto.
  - exists [KDetach id (pr_pid q)]. split; [reflexivity|]. intros c' [<-|[]]. right. eauto.
  - exists [KDetach id (pr_pid q)]. split; [reflexivity|]. intros c' [<-|[]]. right. eauto.
Qed.
Lemma made_trans s1 s2 s3 a b : made s1 s2 a -> made s2 s3 b -> made s1 s3 (a ++ b).
Proof. unfold made. intros -> ->. rewrite rev_app_distr, app_assoc. reflexivity. Qed.
Lemma ticks_calls P st st' : ticks P st st' -> exists new, made st st' new /\ forall c, In c new -> allowed P c.
Proof.
  induction 1 as [|st st1 st2 H1 _ IH]; [exists []; split; [reflexivity|intros c []]|].
  destruct (tick_calls _ _ _ H1) as (a & A1 & A2), IH as (b & B1 & B2). exists (a ++ b).
  split; [eapply made_trans; eauto|]. intros c. rewrite in_app_iff. intros [|]; auto.
Qed.

(** ** Every history, direct deletions included *)
Lemma delete_keeps st id : d_procs (fst (deleteProcess id st)) = d_procs st /\ d_calls (fst (deleteProcess id st)) = d_calls st.
Proof. unfold deleteProcess, dbind, get_proc. destruct (nth_error _ _); cbn; auto. Qed.
Record det_inv (st : dstate) : Prop := {
  di_det : forall id, (detaches id (d_calls st) <= 1)%nat /\
     (forall q, nth_error (d_procs st) id = Some q -> pr_is_attached q = true -> detaches id (d_calls st) = 0%nat) /\
     (nth_error (d_procs st) id = None -> detaches id (d_calls st) = 0%nat);
  di_trap : forall c, In c (d_calls st) -> anything st c
}.
Lemma det_inv_upd st id f : (forall q, pr_is_attached (f q) = true -> pr_is_attached q = true) -> det_inv st -> det_inv (upd st id f).
Proof.
  intros Hf [I J]. constructor; [|exact J]. intros i. destruct (I i) as (A & B & C). split; [exact A|]. cbn. rewrite nth_upd_nth.
  destruct (i =? id)%nat; destruct (nth_error (d_procs st) i) as [q|] eqn:Eq; cbn; split; try congruence; auto.
  - intros q' [= <-] H. eapply B; eauto.
Qed.
Lemma detaches_detach id i pid l : detaches i (KDetach id pid :: l) = ((if Nat.eqb id i then 1 else 0) + detaches i l)%nat.
Proof. unfold detaches. cbn. destruct (Nat.eqb id i); reflexivity. Qed.
Lemma det_inv_detach st id q : nth_error (d_procs st) id = Some q -> pr_is_attached q = true -> det_inv st ->
  det_inv (add_call (upd st id (set_attached false)) (KDetach id (pr_pid q))).
Proof.
  intros Hq Ha [I J]. constructor.
  - intros i. cbn [d_calls d_procs add_call upd set_procs]. rewrite detaches_detach. destruct (I i) as (A & B & C).
    cbn. rewrite nth_upd_nth. destruct (Nat.eqb id i) eqn:E.
    + apply Nat.eqb_eq in E. subst i. rewrite Nat.eqb_refl. specialize (B q Hq Ha). rewrite B. rewrite Hq. cbn. split; [lia|].
      split; [|discriminate]. intros q' [= <-]. discriminate.
    + rewrite Nat.eqb_sym, E. cbn. split; [exact A|]. split; auto.
  - intros c [<-|Hin]; [exact I0 || exact Logic.I|]. specialize (J c Hin). destruct c; exact J.
Qed.
Lemma tick_det st st' : tick anything st st' -> det_inv st -> det_inv st'.
Proof.
  intros Ht Hi. destruct Ht.
  - destruct Hi as [I J]. constructor.
    + intros i. cbn [d_calls d_procs add_call]. rewrite detaches_other; [apply I|].
      destruct c; try reflexivity. now destruct (H0 id pid).
    + intros c' [<-|Hin]; [destruct c; exact H|]. specialize (J c' Hin). destruct c'; exact J.
  - now apply det_inv_upd.
  - now apply det_inv_upd.
  - now apply det_inv_upd.
  - now apply det_inv_upd.
  - destruct Hi as [I J]. constructor.
    + intros i. cbn [d_calls d_procs enrol set_reg set_procs]. destruct (I i) as (A & B & C). split; [exact A|].
      destruct (Nat.lt_ge_cases i (List.length (d_procs st))) as [Hl|Hl].
      * rewrite nth_error_app1 by exact Hl. auto.
      * assert (nth_error (d_procs st) i = None) as En by now apply nth_error_None. auto.
    + intros c Hin. specialize (J c Hin). destruct c; exact J.
  - pose proof (det_inv_detach st id q H H0 Hi) as [I J]. constructor; [exact I|]. intros c Hin. specialize (J c Hin). destruct c; exact J.
  - now apply det_inv_detach.
  - pose proof (det_inv_upd st id (set_attached false) ltac:(now intros) Hi) as [I J]. constructor; [exact I|].
    intros c Hin. specialize (J c Hin). destruct c; exact J.
Qed.
Lemma ticks_det st st' : ticks anything st st' -> det_inv st -> det_inv st'.
Proof. induction 1; eauto using tick_det. Qed.
Lemma det_same st st' : d_procs st' = d_procs st -> d_calls st' = d_calls st -> det_inv st -> det_inv st'.
Proof. intros H1 H2 [I J]. constructor; rewrite H2; [rewrite H1; exact I|]. intros c Hin. specialize (J c Hin). destruct c; exact J. Qed.
Lemma reachable_det K p st : reachable K p st -> det_inv st.
Proof.
  intros (ops & ->).
  assert (det_inv (new_debugger p)) as I0.
  { unfold new_debugger, enableSysgood. destruct (negb _); cbn; (constructor; cbn; [|easy]); intros [|id]; cbn; (split; [lia|split; easy]). }
  revert I0. generalize (new_debugger p). induction ops as [|o ops IH]; intros st I; [exact I|].
  cbn. apply IH. destruct (direct_delete o) eqn:Ed.
  - destruct o; try discriminate; cbn [run_op].
    + destruct (delete_keeps st process). eapply det_same; eauto.
    + unfold deleteProcess_pid. destruct (dget Z.eqb pid (d_dict st)) as [id|]; [|exact I].
      destruct (delete_keeps st id). eapply det_same; eauto.
  - destruct (op_ticks K p o st Ed) as [Ht|(H1 & H2 & H3 & H4)]; [eapply ticks_det; eauto|eapply det_same; eauto].
Qed.
