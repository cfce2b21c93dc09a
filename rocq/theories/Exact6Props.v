(** * Exact6Props: the descriptors of the parent when the child can not be created (C90). *)
From Coq Require Import ZArith List Ascii String.
From Verif Require Import PyBase ChildModel ChildSpec ChildProofs ChildProofs2 ChildProofs3 ExactProofs6.
Import ListNotations.
Open Scope Z_scope.

(** Whenever fork() fails: both ends of the pipe stay open and all other descriptors are what they were *)
Theorem c90_fork_exact : forall os maxfd r w x arguments no_stdout env close_fds pass_fds fds, r <> w ->
  exists st, createChild os maxfd (inl (r, w)) (inr x) arguments no_stdout env close_fds pass_fds (before fds) = (st, Raise x) /\
    c_fds st r = Some (Desc 1 (FPipe false)) /\ c_fds st w = Some (Desc 1 (FPipe true)) /\ (forall fd, fd <> r -> fd <> w -> c_fds st fd = fds fd) /\
    rev (c_calls st) = [CPipe; CSetCloexec w; CFork].
Proof. exact fork_left. Qed.
Print Assumptions c90_fork_exact.
(** Whenever pipe() fails: nothing changes *)
Theorem c90_pipe : forall os maxfd x fork arguments no_stdout env close_fds pass_fds fds,
  exists st, createChild os maxfd (inr x) fork arguments no_stdout env close_fds pass_fds (before fds) = (st, Raise x) /\ (forall fd, c_fds st fd = fds fd) /\ rev (c_calls st) = [CPipe].
Proof. exact pipe_left. Qed.
Print Assumptions c90_pipe.
Example c90_pipe_ex : let st := fst (createChild (the_os None None []) 256 (inr (PyExn (EOSError 24) (T "Too many open files"))) (inl 7) [T "ls"] false None true [] (before std_fds)) in
  map (c_fds st) [2; 3; 4; 5] = map std_fds [2; 3; 4; 5] /\ c_calls st = [CPipe].
Proof. split; reflexivity. Qed.
