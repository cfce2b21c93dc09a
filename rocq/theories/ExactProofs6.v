(** * ExactProofs6: the descriptors of the parent when the child can not be created. *)
From Coq Require Import ZArith List Ascii String Bool Lia.
From Verif Require Import PyBase PyFacts ChildModel ChildSpec ChildProofs ChildProofs2 ChildProofs3.
Import ListNotations.
Open Scope Z_scope.

Lemma fork_left os maxfd r w x arguments no_stdout env close_fds pass_fds fds : r <> w ->
  exists st, createChild os maxfd (inl (r, w)) (inr x) arguments no_stdout env close_fds pass_fds (before fds) = (st, Raise x) /\
    c_fds st r = Some (Desc 1 (FPipe false)) /\ c_fds st w = Some (Desc 1 (FPipe true)) /\ (forall fd, fd <> r -> fd <> w -> c_fds st fd = fds fd) /\
    rev (c_calls st) = [CPipe; CSetCloexec w; CFork].
Proof.
  intros H. unfold createChild, set_cloexec_flag, cbind, did, upd, desc_of, before, craise. cbn [c_fds c_calls c_pipe]. unfold fd_set at 1. rewrite Z.eqb_refl.
  eexists. split; [reflexivity|]. cbn [c_fds c_calls d_flags d_file]. unfold fd_set.
  assert (r =? w = false) as Hr by now apply Z.eqb_neq. split; [now rewrite Hr, Z.eqb_refl|]. split; [now rewrite Z.eqb_refl|]. split; [|reflexivity].
  intros fd H1 H2. apply Z.eqb_neq in H1, H2. now rewrite H1, H2.
Qed.
Lemma pipe_left os maxfd x fork arguments no_stdout env close_fds pass_fds fds :
  exists st, createChild os maxfd (inr x) fork arguments no_stdout env close_fds pass_fds (before fds) = (st, Raise x) /\ (forall fd, c_fds st fd = fds fd) /\ rev (c_calls st) = [CPipe].
Proof. eexists. split; [reflexivity|]. split; reflexivity. Qed.
