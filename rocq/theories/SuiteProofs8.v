(** * SuiteProofs8: what the tests of strace.py notice (C137). *)
From Coq Require Import ZArith List Ascii String Bool Lia.
From Verif Require Import PyBase Platform IntModel RegexModel RegexSpec RegexProofs SigModel ArgModel DbgModel DbgSpec SysModel StraceModel StorySpec OutSpec OutModel SuiteModel SuiteSpec SuiteProofs SuiteProofs4 SuiteProofs5.
Import ListNotations.
Open Scope Z_scope.

Lemma msearch_sound r s : forall b m, msearch_from r b s = Some m -> exists pre, s = pre ++ m_text m ++ m_after m /\ at_line (rev pre ++ b) = true /\ den r (rev pre ++ b) (m_text m) (m_after m) [] (m_groups m).
Proof.
  assert (H0 : forall b s m, (if at_line b then match_at r (b, s) else None) = Some m -> exists pre, s = pre ++ m_text m ++ m_after m /\ at_line (rev pre ++ b) = true /\ den r (rev pre ++ b) (m_text m) (m_after m) [] (m_groups m)).
  { intros b t m E. destruct (at_line b) eqn:Hb; [|discriminate]. apply match_at_sound in E as (E1 & _ & E2). exists []. auto. }
  induction s as [|y s IH]; intros b m; cbn [msearch_from]; (match goal with |- match ?x with _ => _ end = _ -> _ => destruct x as [m'|] eqn:E end; [intros [= <-]; exact (H0 _ _ _ E)|]); [discriminate|].
  intros H. apply IH in H as (pre & -> & H1 & H2). exists (y :: pre). cbn [rev]. rewrite <- app_assoc. auto.
Qed.
Lemma at_line_start before : at_line (rev before) = true -> before = [] \/ exists b, before = b ++ [z2b 10].
Proof.
  destruct (rev before) as [|c l] eqn:E; intros H.
  - left. rewrite <- (rev_involutive before), E. reflexivity.
  - right. exists (rev l). cbn [at_line] in H. apply Ascii.eqb_eq in H. rewrite <- (rev_involutive before), E, H. reflexivity.
Qed.
Lemma found_iff r s : found r s = true <-> exists before w after c, s = before ++ w ++ after /\ (before = [] \/ exists b, before = b ++ [z2b 10]) /\ den r (rev before) w after [] c.
Proof.
  unfold found, msearch. split.
  - destruct (msearch_from r [] s) as [m|] eqn:E; [intros _|discriminate]. apply msearch_sound in E as (pre & E1 & E2 & E3). rewrite app_nil_r in E2, E3.
    exists pre, (m_text m), (m_after m), (m_groups m). auto using at_line_start.
  - intros (before & w & after & c & -> & Hb & H). pose proof (msearch_complete r before [] w after c (line_start _ Hb)) as Hm. rewrite app_nil_r in Hm. specialize (Hm H).
    destruct (msearch_from r [] (before ++ w ++ after)); [reflexivity|congruence].
Qed.
Lemma found_text_iff t s : found (rtext t) s = true <-> has_line s t.
Proof.
  split; [|apply found_text]. intros H. apply found_iff in H as (before & w & after & c & -> & Hb & H). apply den_text in H as [-> _]. exists before, after. auto.
Qed.
Section Status.
  Context (p : platform) (ns : namespace) (repr_fs : list byte -> text) (errorcode : list (Z * text)) (strerror : Z -> text).
  Lemma exitcode_iff pid x l acts e output status : strace_run p ns repr_fs errorcode strerror pid x l acts e output status ->
    forall ec c, meaning e = Exited c -> (test_exitcode ec output status = true <-> ec = c).
  Proof.
    intros Hrun ec c He. unfold test_exitcode. rewrite (traceback _ _ _ _ _ _ _ _ _ _ _ _ Hrun). apply run_output in Hrun as (ls & le & _ & _ & _ & _ & ->). rewrite He. cbn [andb]. rewrite Z.eqb_eq. split; auto.
  Qed.
  Lemma exitsignal_iff pid x l acts e output status : strace_run p ns repr_fs errorcode strerror pid x l acts e output status ->
    forall signum a s core, acts = a ++ [ASignal s] -> meaning e = Killed s core -> 0 <= s < 128 -> (test_exitsignal signum output status = true <-> signum = s).
  Proof.
    intros Hrun signum a s core Ea He Hs. unfold test_exitsignal. rewrite (traceback _ _ _ _ _ _ _ _ _ _ _ _ Hrun). apply run_output in Hrun as (ls & le & _ & _ & _ & _ & ->). rewrite He, Ea, last_signal.
    rewrite Z.mod_small by lia. cbn [andb]. rewrite Z.eqb_eq. lia.
  Qed.
End Status.
