(** * PathProofs3: every program can be watched by examples/itrace.py; a signal ends it (C126). *)
From Coq Require Import ZArith List Ascii String Bool Lia.
From Verif Require Import PyBase PyFacts Platform SigModel ToolsModel DbgModel DbgSpec SysModel SysSpec StraceModel StraceSpec StorySpec ItraceModel ItraceSpec PathSpec StoryProofs3 PathProofs2.
Import ListNotations.
Open Scope Z_scope.

(** A kernel that answers from a list of states and addresses *)
Definition listed (l : list (status_meaning * Z)) : dkernel :=
  DKernel (fun n pid _ => Ok (pid, encode (fst (nth n l (CALL_STOP, 0))))) (fun _ _ => Ok 0) (fun _ _ => Ok tt).
Definition listed_ip (l : list (status_meaning * Z)) : nat -> nat -> res Z := fun n _ => Ok (snd (nth n l (CALL_STOP, 0))).
Definition pass_answers (k : nat) : list (status_meaning * Z) := List.concat (repeat [(CALL_STOP, 0); (CALL_STOP, 0)] k).
Definition walk_answers (path : list Z) : list (status_meaning * Z) := flat_map (fun a => [(Stopped 5, a); (Stopped 5, 0)]) path.

Lemma can_walk pid id path rest (after : list (status_meaning * Z) -> nat -> Prop) : forall pre, Forall (fun a => 0 <= a) path ->
  (forall pre, after (pre ++ rest) (List.length pre)) ->
  let l := pre ++ walk_answers path ++ rest in walks (listed l) (listed_ip l) pid id (List.length pre) path (after l).
Proof.
  induction path as [|a path IH]; intros pre Hp Haf l; [apply Haf|].
  inversion Hp as [|a' path' Ha Hp']; subst.
  assert (l = (pre ++ [(Stopped 5, a); (Stopped 5, 0)]) ++ walk_answers path ++ rest) as El by (unfold l; cbn; now rewrite <- app_assoc).
  pose proof (IH (pre ++ [(Stopped 5, a); (Stopped 5, 0)]) Hp' Haf) as Hrec. cbv zeta in Hrec. rewrite <- El in Hrec. rewrite app_length, Nat.add_comm in Hrec.
  assert (forall k x, nth_error ([(Stopped 5, a); (Stopped 5, 0)] ++ walk_answers path ++ rest) k = Some x -> nth (k + List.length pre) l (CALL_STOP, 0) = x) as Hnth.
  { intros k x H. unfold l. now apply nth_mid. }
  clearbody l. assert (nth (List.length pre) l (CALL_STOP, 0) = (Stopped 5, a)) as H0 by now apply (Hnth 0%nat).
  cbn [walks]. unfold reports, listed, listed_ip. cbn [k_wait k_do]. rewrite H0. split; [reflexivity|]. split; [exact Ha|]. split; [reflexivity|].
  split; [|exact Hrec]. erewrite (Hnth 1%nat) by reflexivity. reflexivity.
Qed.
Lemma can_pass pid id k rest (after : list (status_meaning * Z) -> nat -> Prop) : forall pre,
  (forall pre, after (pre ++ rest) (List.length pre)) ->
  let l := pre ++ pass_answers k ++ rest in passes (listed l) pid id (List.length pre) k (after l).
Proof.
  induction k as [|k IH]; intros pre Haf l; [apply Haf|].
  assert (l = (pre ++ [(CALL_STOP, 0); (CALL_STOP, 0)]) ++ pass_answers k ++ rest) as El by (unfold l; cbn; now rewrite <- app_assoc).
  pose proof (IH (pre ++ [(CALL_STOP, 0); (CALL_STOP, 0)]) Haf) as Hrec. cbv zeta in Hrec. rewrite <- El in Hrec. rewrite app_length, Nat.add_comm in Hrec.
  assert (forall j x, nth_error ([(CALL_STOP, 0); (CALL_STOP, 0)] ++ pass_answers k ++ rest) j = Some x -> nth (j + List.length pre) l (CALL_STOP, 0) = x) as Hnth.
  { intros j x H. unfold l. now apply nth_mid. }
  clearbody l. cbn [passes]. unfold reports, StorySpec.resumes, listed. cbn [k_wait k_do]. split; [reflexivity|]. split; [|exact Hrec].
  erewrite (Hnth 1%nat) by reflexivity. reflexivity.
Qed.
Lemma can_be_watched o pid k path a m x l : Forall (fun a => 0 <= a) (path ++ [a]) -> s_pid o = None -> s_program o = x :: l ->
  exists K ip first asked, arrives o (Ok pid) K pid true first asked /\
    passes K pid 0 (List.length asked) k (fun n => walks K ip pid 0 n path (last_step K ip pid 0 a m)).
Proof.
  intros Ha Hp Hprog. apply Forall_app in Ha as [Hpath Ha]. inversion Ha as [|a' nil H0 _]; subst.
  set (pre := [(Stopped 5, 0); (Stopped 5, 0)]). set (answers := pre ++ pass_answers k ++ walk_answers path ++ [(m, a); (m, 0)]).
  exists (listed answers), (listed_ip answers). eexists. eexists. split.
  - eapply arrives_program; eauto; [intros n; rewrite Hp; discriminate|reflexivity..].
  - apply (can_pass pid 0 k (walk_answers path ++ [(m, a); (m, 0)])
      (fun l n => walks (listed l) (listed_ip l) pid 0 n path (last_step (listed l) (listed_ip l) pid 0 a m)) pre).
    intros pre'. apply (can_walk pid 0 path [(m, a); (m, 0)] (fun l => last_step (listed l) (listed_ip l) pid 0 a m) pre' Hpath).
    clear - H0. intros pre. unfold last_step, reports, listed, listed_ip. cbn [k_wait k_do].
    change (List.length pre) with (0 + List.length pre)%nat at 1. rewrite (nth_mid pre _ 0 (m, a)) by reflexivity. split; [reflexivity|]. split; [exact H0|]. split; [reflexivity|].
    rewrite (nth_mid pre _ 1 (m, 0)) by reflexivity. reflexivity.
Qed.

(** A program that is told that a child has ended (SIGCHLD, 17) *)
Definition told : list (status_meaning * Z) := [(Stopped 5, 0); (Stopped 5, 0); (Stopped 5, 4096); (Stopped 17, 0); (Killed 9 false, 0); (Killed 9 false, 0)].
Lemma killed_wrongly o pid : pid <> 0 -> s_pid o = None -> s_program o <> [] ->
  exists K ip first asked, arrives o (Ok pid) K pid true first asked /\
    (exists n a, n = List.length asked /\ last_step K ip pid 0 a (Stopped 17) n) /\
    forall p ns repr_fs stops, running_linux p = true -> exists st', itrace_main p ns repr_fs K stops o (Ok pid) ip (Some 0) 1 2 (StraceModel.start p) = (st', Ret None) /\
      In (KCont 0 pid 9) (d_calls (t_dbg st')) /\ ~ (exists c, In c (d_calls (t_dbg st')) /\ match c with KCont _ _ s | KSyscall _ _ s => s = 17 | _ => False end).
Proof.
  intros Hpid Hp Hprog. destruct (s_program o) as [|x l] eqn:Epr; [contradiction|].
  exists (listed told), (listed_ip told). eexists. eexists.
  assert (arrives o (Ok pid) (listed told) pid true (LLine (execve_line x (x :: l) pid)) [KWait pid 0; KSetOptions 0 pid (all_options o)]) as Ha.
  { eapply arrives_program; eauto; [intros n; rewrite Hp; discriminate|reflexivity..]. }
  split; [exact Ha|]. assert (last_step (listed told) (listed_ip told) pid 0 4096 (Stopped 17) 2) as Hlast by (repeat split; cbn; lia).
  split; [exists 2%nat, 4096; auto|]. intros p ns repr_fs stops Hl.
  destruct (path_to_signal p ns repr_fs (listed told) stops o (Ok pid) (listed_ip told) pid Hl Hpid true _ _ 0 [] 4096 17 0 0 Ha) as (st' & R & _ & C & _).
  - cbn [passes walks]. split; [exact Hlast|]. split; [reflexivity|]. exists false. reflexivity.
  - lia.
  - lia.
  - exists st'. split; [exact R|]. rewrite <- (rev_involutive (d_calls (t_dbg st'))), C. cbn. split; [auto 8|].
    intros (c & Hc & Hs). repeat (destruct Hc as [Hc|Hc]; [subst c; try lia; try contradiction|]). contradiction.
Qed.
