(** * StoryProofs3: every program can be run, and its story is unique (C121). *)
From Coq Require Import ZArith List Ascii String Bool Lia.
From Verif Require Import PyBase PyFacts Platform IntModel RegModel SigModel ToolsModel ArgModel DbgModel DbgSpec
  SysModel SysSpec StraceModel StraceSpec StorySpec.
Import ListNotations.
Open Scope Z_scope.

(** A kernel that answers from a list *)
Definition answer : Type := status_meaning * stop.
Definition idle : stop := Stop (Err EUndefined) (View (fun _ _ => Err EUndefined) (fun _ => Err EUndefined) (fun _ _ => Err EUndefined)) (Err EUndefined) (Err EUndefined).
Definition act_answers (a : act) : list answer :=
  match a with
  | ACall a b => [(CALL_STOP, idle); (CALL_STOP, a); (CALL_STOP, idle); (CALL_STOP, b)]
  | AExec a b z => [(CALL_STOP, idle); (CALL_STOP, a); (CALL_STOP, idle); (CALL_STOP, b); (Stopped 5, idle); (Stopped 5, z)]
  | AExecTraced a b => [(CALL_STOP, idle); (CALL_STOP, a); (TraceEvent PTRACE_EVENT_EXEC, idle); (CALL_STOP, idle); (CALL_STOP, idle); (CALL_STOP, b)]
  | ASignal s => [(Stopped s, idle); (Stopped s, idle); (Stopped s, idle)]
  end.
Definition end_answers (e : ending) : list answer :=
  match e with
  | Ended m => [(m, idle)]
  | EndedInside a z m => [(CALL_STOP, idle); (CALL_STOP, a); (m, idle); (m, z)]
  end.
Definition obliging (l : list answer) : dkernel :=
  DKernel (fun n pid _ => Ok (pid, encode (fst (nth n l (CALL_STOP, idle))))) (fun _ _ => Ok 0) (fun _ _ => Ok tt).
Definition seen_at (l : list answer) : nat -> nat -> stop := fun n _ => snd (nth n l (CALL_STOP, idle)).

Definition answerable (a : act) : Prop := match a with ASignal s => 1 <= s < 128 | _ => True end.
Lemma nth_mid {A} (pre l : list A) k x d : nth_error l k = Some x -> nth (k + List.length pre) (pre ++ l) d = x.
Proof. intros H. rewrite app_nth2 by lia. replace (k + List.length pre - List.length pre)%nat with k by lia. now apply nth_error_nth. Qed.
Lemma can_perform pid id e acts : forall pre, Forall answerable acts -> deadly (meaning e) ->
  let l := pre ++ flat_map act_answers acts ++ end_answers e in
  performs (obliging l) (seen_at l) pid id (List.length pre) acts (ends (obliging l) (seen_at l) pid id e).
Proof.
  induction acts as [|a acts IH]; intros pre Hv He l.
  - cbn [performs flat_map app] in *. unfold ends, reports, resumes, obliging, seen_at, l. cbn [k_wait k_do].
    destruct e as [m|a z m]; cbn [meaning end_answers] in *.
    + split; [exact He|]. change (List.length pre) with (0 + List.length pre)%nat. erewrite nth_mid by reflexivity. reflexivity.
    + change (List.length pre) with (0 + List.length pre)%nat at 1. repeat (erewrite nth_mid by reflexivity). repeat split; auto.
  - inversion Hv as [|a' acts' Ha Hv']; subst.
    assert (l = (pre ++ act_answers a) ++ flat_map act_answers acts ++ end_answers e) as El. { unfold l. cbn [flat_map]. now rewrite <- !app_assoc. }
    pose proof (IH (pre ++ act_answers a) Hv' He) as Hrec. cbv zeta in Hrec. rewrite <- El in Hrec. rewrite app_length, Nat.add_comm in Hrec.
    assert (forall k x, nth_error (act_answers a ++ flat_map act_answers acts ++ end_answers e) k = Some x -> nth (k + List.length pre) l (CALL_STOP, idle) = x) as Hnth.
    { intros k x H. unfold l. cbn [flat_map]. rewrite <- app_assoc. now apply nth_mid. }
    clearbody l. assert (forall x, nth_error (act_answers a ++ flat_map act_answers acts ++ end_answers e) 0 = Some x -> nth (List.length pre) l (CALL_STOP, idle) = x) as H0.
    { intros x H. now apply (Hnth 0%nat). }
    destruct a as [a b|a b z|a b|s]; cbn [performs]; unfold reports, resumes, obliging, seen_at; cbn [k_wait k_do].
    + erewrite H0 by reflexivity. repeat (erewrite Hnth by reflexivity). repeat (split; [reflexivity|]). exact Hrec.
    + erewrite H0 by reflexivity. repeat (erewrite Hnth by reflexivity). repeat (split; [reflexivity|]). exact Hrec.
    + erewrite H0 by reflexivity. repeat (erewrite Hnth by reflexivity). repeat (split; [reflexivity|]). exact Hrec.
    + erewrite H0 by reflexivity. split; [split; [exact Ha|reflexivity]|]. repeat (split; [reflexivity|]). exact Hrec.
Qed.
Lemma can_run o child pid acts e x l : Forall answerable acts -> deadly (meaning e) ->
  child = Ok pid -> s_pid o = None -> s_program o = x :: l ->
  exists K stops first asked, begins o child K pid first asked /\ performs K stops pid 0 (List.length asked) acts (ends K stops pid 0 e).
Proof.
  intros Hv He Hc Hp Hprog. set (pre := [(Stopped 5, idle); (Stopped 5, idle); (Stopped 5, idle)]).
  exists (obliging (pre ++ flat_map act_answers acts ++ end_answers e)), (seen_at (pre ++ flat_map act_answers acts ++ end_answers e)). eexists. eexists. split.
  - eapply begins_program; eauto; [intros n; rewrite Hp; discriminate|reflexivity..].
  - exact (can_perform pid 0%nat e acts pre Hv He).
Qed.
Lemma can_attach o child pid acts e : Forall answerable acts -> deadly (meaning e) -> s_pid o = Some pid ->
  exists K stops first asked, begins o child K pid first asked /\ performs K stops pid 0 (List.length asked) acts (ends K stops pid 0 e).
Proof.
  intros Hv He Hp. set (pre := [(Stopped 19, idle); (Stopped 19, idle); (Stopped 19, idle); (Stopped 19, idle)]).
  exists (obliging (pre ++ flat_map act_answers acts ++ end_answers e)), (seen_at (pre ++ flat_map act_answers acts ++ end_answers e)). eexists. eexists. split.
  - eapply begins_attach; eauto; reflexivity.
  - exact (can_perform pid 0%nat e acts pre Hv He).
Qed.

(** *** The story is unique *)
Section Unique.
  Context (p : platform) (ns : namespace) (repr_fs : list byte -> text) (errorcode : list (Z * text)) (strerror : Z -> text)
          (o : soptions) (only : list text) (pid : Z) (id : nat).
  Lemma enters_one a c c' : enters p a c -> enters p a c' -> c = c'.
  Proof. intros (r & H1 & H2) (r' & H3 & H4). congruence. Qed.
  Lemma arguments_one a c c1 c2 : with_arguments p ns repr_fs o a c c1 -> with_arguments p ns repr_fs o a c c2 -> c1 = c2.
  Proof. intros (r & H1 & H2) (r' & H3 & H4). congruence. Qed.
  Lemma line_one z c c1 c2 x1 x2 : line_of p ns repr_fs o pid id z c c1 x1 -> line_of p ns repr_fs o pid id z c c2 x2 -> c1 = c2 /\ x1 = x2.
  Proof.
    intros (t & H1 & (A1 & A2 & A3 & A4) & ->) (t' & H2 & (B1 & B2 & B3 & B4) & ->). assert (c1 = c2) as <-.
    { destruct c1, c2. cbn in *. congruence. }
    split; [reflexivity|]. assert (t = t') as <- by congruence. reflexivity.
  Qed.
  Lemma announced_one a c c1 c2 l1 l2 : announced p ns repr_fs o pid id a c c1 l1 -> announced p ns repr_fs o pid id a c c2 l2 -> c1 = c2 /\ l1 = l2.
  Proof.
    unfold announced. destruct (s_enter o).
    - intros (x1 & H1 & ->) (x2 & H2 & ->). destruct (line_one _ _ _ _ _ _ H1 H2) as [-> ->]. auto.
    - intros (-> & ->) (-> & ->). auto.
  Qed.
  Notation call_lines := (call_lines p ns repr_fs errorcode strerror o only pid id).
  Lemma call_one a b z l1 l2 l1' l2' : call_lines a b z l1 l2 -> call_lines a b z l1' l2' -> l1 = l1' /\ l2 = l2'.
  Proof.
    intros [c A1 A2|c c0 c1 c2 c3 t l x A1 A2 A3 A4 A5 A6] [d B1 B2|d d0 d1 d2 d3 u m y B1 B2 B3 B4 B5 B6];
      pose proof (enters_one _ _ _ A1 B1); subst d; try contradiction; [auto|].
    pose proof (arguments_one _ _ _ _ A3 B3). subst d0. destruct (announced_one _ _ _ _ _ _ A4 B4) as [-> ->].
    assert (c2 = d2) as -> by congruence. destruct (line_one _ _ _ _ _ _ A6 B6) as [_ ->]. auto.
  Qed.
  Lemma story_one acts : forall l1 l2, story p ns repr_fs errorcode strerror o only pid id acts l1 -> story p ns repr_fs errorcode strerror o only pid id acts l2 -> l1 = l2.
  Proof.
    induction acts as [|a acts IH]; intros l1 l2 H1 H2; inversion H1; subst; inversion H2; subst; try reflexivity; try (now apply IH);
      match goal with A : call_lines _ _ _ _ _, B : call_lines _ _ _ _ _ |- _ => destruct (call_one _ _ _ _ _ _ _ A B) as [-> ->] end;
      repeat f_equal; now apply IH.
  Qed.
  Lemma end_one e l1 l2 : end_lines p ns repr_fs o only pid id e l1 -> end_lines p ns repr_fs o only pid id e l2 -> l1 = l2.
  Proof.
    intros [m|a z m c A1 A2|a z m c c0 c1 x A0 A1 A2 A3 A4|a z m c c0 c1 x A0 A1 A2 A3 A4] H; inversion H as [|a' z' m' d B1 B2|a' z' m' d d0 d1 y B0 B1 B2 B3 B4|a' z' m' d d0 d1 y B0 B1 B2 B3 B4]; subst;
      try reflexivity; pose proof (enters_one _ _ _ A1 B1); subst d; try contradiction; try congruence;
      pose proof (arguments_one _ _ _ _ A3 B3); subst d0; destruct (line_one _ _ _ _ _ _ A4 B4) as [_ ->]; reflexivity.
  Qed.
End Unique.
