From Coq Require Import ZArith List Ascii String Bool Lia.
From Verif Require Import PyBase PyFacts Platform DbgModel DbgSpec DbgProofs.
Import ListNotations.
Open Scope Z_scope.

(** ** Statuses *)
Lemma termsig_mod s : WTERMSIG s = s mod 128.
Proof. unfold WTERMSIG. change 0x7f with (Z.ones 7). now rewrite Z.land_ones by lia. Qed.
Lemma exitstatus_div s : WEXITSTATUS s = (s / 256) mod 256.
Proof.
  unfold WEXITSTATUS. rewrite Z.shiftr_land. change (Z.shiftr 0xff00 8) with (Z.ones 8).
  rewrite Z.land_ones by lia. now rewrite Z.shiftr_div_pow2 by lia.
Qed.
Lemma stopped_mod s : WIFSTOPPED s = (s mod 256 =? 127).
Proof. unfold WIFSTOPPED. change 0xff with (Z.ones 8). now rewrite Z.land_ones by lia. Qed.
Lemma event_div s : WPTRACEEVENT s = s / 65536.
Proof. unfold WPTRACEEVENT. now rewrite Z.shiftr_div_pow2 by lia. Qed.
Lemma mod128_256 s : s mod 256 = 127 -> s mod 128 = 127.
Proof. intros H. rewrite (Z.div_mod s 256) by lia. rewrite H. replace (256 * (s / 256) + 127) with (127 + (2 * (s / 256)) * 128) by ring.
  rewrite Z.mod_add by lia. reflexivity. Qed.
Lemma core_bit s : WCOREDUMP s = (128 <=? s mod 256).
Proof.
  unfold WCOREDUMP.
  assert (Z.land s 128 = Z.land (s mod 256) 128) as ->.
  { change 256 with (2 ^ 8). rewrite <- Z.land_ones by lia. rewrite <- Z.land_assoc. reflexivity. }
  pose proof (Z.mod_pos_bound s 256 ltac:(lia)) as Hb. revert Hb. generalize (s mod 256). intros x Hb.
  assert (x = Z.of_nat (Z.to_nat x)) as -> by lia. assert (Z.to_nat x < 256)%nat as Hn by lia. revert Hn. generalize (Z.to_nat x). clear.
  intros n Hn.
  assert (forallb (fun n => Bool.eqb (negb (Z.land (Z.of_nat n) 128 =? 0)) (128 <=? Z.of_nat n)) (seq 0 256) = true) as H by (vm_compute; reflexivity).
  rewrite forallb_forall in H. specialize (H n). apply eqb_prop. apply H. apply in_seq. lia.
Qed.

(** ** Single functions *)
Section Facts.
  Context (K : dkernel) (p : platform).

  Definition gone (st : dstate) (id : nat) (q : proc) : dstate :=
    let st1 := upd st id (set_running false) in
    if pr_is_attached q then drop (upd st1 id (set_attached false)) id (pr_pid q) else st1.
  Lemma notRunning_eq st id q : nth_error (d_procs st) id = Some q -> notRunning K id st = (gone st id q, Ret tt).
  Proof.
    intros H. unfold notRunning, dbind at 1, upd_proc at 1. fold (upd st id (set_running false)).
    unfold gone. set (st1 := upd st id (set_running false)).
    assert (nth_error (d_procs st1) id = Some (set_running false q)) as H1 by (cbn; rewrite nth_upd_nth, Nat.eqb_refl, H; reflexivity).
    unfold detach, dbind at 1, get_proc at 1. rewrite H1. cbn [pr_is_attached set_running pr_running].
    destruct (pr_is_attached q); cbn [negb]; [|reflexivity].
    unfold dbind at 1, upd_proc at 1. fold (upd st1 id (set_attached false)). unfold dbind at 1, dret at 1.
    unfold deleteProcess, dbind, get_proc.
    assert (nth_error (d_procs (upd st1 id (set_attached false))) id = Some (set_attached false (set_running false q))) as H2.
    { cbn. rewrite nth_upd_nth, Nat.eqb_refl. cbn in H1. rewrite H1. reflexivity. }
    rewrite H2. reflexivity.
  Qed.
  Lemma gone_facts st id q : nth_error (d_procs st) id = Some q ->
    ~ alive (gone st id q) id /\ d_calls (gone st id q) = d_calls st /\
    (forall i, i <> id -> nth_error (d_procs (gone st id q)) i = nth_error (d_procs st) i) /\
    (attached st id -> registry_ok st -> ~ registered (gone st id q) id /\ dget Z.eqb (pr_pid q) (d_dict (gone st id q)) = None /\
       forall i, i <> id -> registered st i -> registered (gone st id q) i) /\
    (~ attached st id -> d_dict (gone st id q) = d_dict st /\ d_list (gone st id q) = d_list st).
  Proof.
    intros H. split; [|split; [|split; [|split]]].
    - intros (q' & H1 & H2). unfold gone in H1. destruct (pr_is_attached q); cbn in H1; rewrite !nth_upd_nth, Nat.eqb_refl, H in H1;
        injection H1 as <-; discriminate.
    - unfold gone. destruct (pr_is_attached q); reflexivity.
    - intros i Hi. apply Nat.eqb_neq in Hi. unfold gone. destruct (pr_is_attached q); cbn; rewrite !nth_upd_nth, Hi; reflexivity.
    - intros (q' & H1 & H2) (R1 & R2 & R3 & R4). rewrite H in H1. injection H1 as <-. unfold gone. rewrite H2. cbn.
      assert (forall l, NoDup l -> ~ In id (remove_first id l) /\ forall i, i <> id -> In i l -> In i (remove_first id l)) as Hr.
      { clear. induction l as [|x l IH]; cbn; intros Hn; [auto|]. inversion Hn; subst. destruct (IH H2) as [I1 I2].
        destruct (Nat.eqb x id) eqn:Ex.
        - apply Nat.eqb_eq in Ex. subst x. split; [exact H1|]. intros i Hi [->|Hin]; [congruence|exact Hin].
        - apply Nat.eqb_neq in Ex. split; [cbn; intros [->|Hin]; [congruence|auto]|]. intros i Hi [->|Hin]; [now left|right; auto]. }
      unfold registered. cbn. destruct (Hr _ R3). split; [auto|]. split; [|auto].
      apply (dget_ddel_same Z.eqb Z.eqb_eq). exact R2.
    - intros Hn. unfold gone. destruct (pr_is_attached q) eqn:Ea; [|auto]. exfalso. apply Hn. exists q. auto.
  Qed.

  Lemma get_proc_eq st id q : nth_error (d_procs st) id = Some q -> get_proc id st = (st, Ret q).
  Proof. intros H. unfold get_proc. now rewrite H. Qed.

  (** The flags of a wait for a given process. *)
  Definition wait_flags (q : proc) (blocking : bool) : Z :=
    let flags := if blocking then 0 else WNOHANG in
    if pr_is_thread q then Z.lor flags (thread_trace_flags p) else flags.
  Lemma wait_pid_eq f pid b st id q :
    running_linux p = true -> pid <> 0 -> dget Z.eqb pid (d_dict st) = Some id -> nth_error (d_procs st) id = Some q ->
    wait K p (S f) (QPid pid b) st =
      let st1 := add_call st (KWait pid (wait_flags q b)) in
      match k_wait K (List.length (d_calls st)) pid (wait_flags q b) with
      | Err (EOSError e) => if e =? ECHILD then (gone st1 id q, Ret (Some (ProcessExit id None None))) else (st1, Raise (XErr (EOSError e)))
      | Err e => (st1, Raise (XErr e))
      | Ok (pid', status) =>
          if pid' =? pid then
            match processStatus_ K p (wait K p f) id status st1 with
            | (st2, Ret ev) => (st2, Ret (Some ev))
            | (st2, Raise x) => (st2, Raise x)
            end
          else if b || negb (pid' =? 0) then (st1, Raise (XErr EDebuggerError)) else (st1, Ret None)
      end.
  Proof.
    intros Hl Hp Hd Hq. cbn [wait]. unfold wait_event_pid_, waitpid_. unfold dbind at 1.
    apply Z.eqb_neq in Hp. rewrite Hp. cbn [negb]. unfold dbind at 1, dget_state. rewrite Hd. unfold dbind at 1. rewrite (get_proc_eq st id q Hq).
    replace (has_ptrace_events p) with true. cbn [negb andb]. rewrite andb_false_r. unfold os_waitpid.
    fold (wait_flags q b). set (st1 := add_call st (KWait pid (wait_flags q b))).
    assert (dget Z.eqb pid (d_dict st1) = Some id) as Hd1 by exact Hd.
    assert (nth_error (d_procs st1) id = Some q) as Hq1 by exact Hq.
    destruct (k_wait K _ pid (wait_flags q b)) as [[pid' status]|e].
    - cbn zeta. rewrite andb_true_r. destruct (pid' =? pid) eqn:Epp; cbn [negb].
      + rewrite andb_false_r. cbn. apply Z.eqb_eq in Epp. subst pid'. rewrite Hp, andb_false_r. rewrite Hd. reflexivity.
      + rewrite andb_true_r. destruct (b || negb (pid' =? 0)) eqn:Eb; [reflexivity|].
        apply orb_false_iff in Eb as [-> Eb]. apply negb_false_iff in Eb. cbn. rewrite Eb. reflexivity.
    - cbn zeta. destruct e; try reflexivity. destruct (errno =? ECHILD) eqn:Ee.
      + rewrite Hd1. unfold processTerminated, dbind. rewrite (notRunning_eq st1 id q Hq1). reflexivity.
      + reflexivity.
  Qed.
End Facts.
