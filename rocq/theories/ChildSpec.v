(** * ChildSpec: the vocabulary of the properties about the creation of the traced program. *)
From Coq Require Import ZArith List Ascii String Bool.
From Verif Require Import PyBase ChildModel.
Import ListNotations.
Open Scope Z_scope.

(** The descriptors that must be closed *)
Definition must_close (MAXFD errpipe_write : Z) (pass_fds : list Z) (fd : Z) : Prop := 3 <= fd < MAXFD /\ fd <> errpipe_write /\ ~ In fd pass_fds.
(** The same, in order *)
Definition to_close (MAXFD errpipe_write : Z) (pass_fds : list Z) : list Z :=
  filter (fun fd => negb (fd =? errpipe_write) && negb (existsb (Z.eqb fd) pass_fds)) (map (fun n => 3 + Z.of_nat n) (seq 0 (Z.to_nat (MAXFD - 3)))).
(** What execve() leaves of a descriptor *)
Definition inherited (d : option desc) : option desc := match d with Some d => if Z.odd (d_flags d) then None else Some d | None => None end.
(** The flags of a descriptor made inheritable *)
Definition made_inheritable (d : option desc) : option desc := match d with Some d => Some (Desc (2 * (d_flags d / 2)) (d_file d)) | None => None end.
(** The descriptors of the child when it executes the program: [t] before, the pipe [r], [w] *)
Definition child_fds (MAXFD : Z) (t : fdtable) (r w : Z) (closing : bool) (pass_fds : list Z) (x : Z) : option desc :=
  if x =? w then Some (Desc 1 (FPipe true))
  else if x =? r then None
  else if existsb (Z.eqb x) pass_fds then made_inheritable (t x)
  else if closing && (3 <=? x) && (x <? MAXFD) then None
  else t x.
(** Descriptors are closed when it is asked for, or when some are passed *)
Definition closes (close_fds : bool) (pass_fds : list Z) : bool := close_fds || negb (Nat.eqb (List.length pass_fds) 0).
(** The calls of the child before it executes the program *)
Definition child_calls (MAXFD : Z) (r w : Z) (closing : bool) (pass_fds : list Z) : list ccall :=
  [CPipe; CSetCloexec w; CFork; CClose r; CTraceMe] ++ map CInheritable pass_fds ++ (if closing then map CClose (to_close MAXFD w pass_fds) else []).

(** The answers of calls that are interrupted [k] times *)
Definition interrupted_read (k : nat) (data : list byte) (rest : list (list byte + Z)) : list (list byte + Z) := repeat (inr EINTR) k ++ inl data :: rest.
Definition interrupted (k : nat) (rest : list (option Z)) : list (option Z) := repeat (Some EINTR) k ++ None :: rest.

(** pipe() gives two descriptors that are not open *)
Definition fresh_pipe (t : fdtable) (r w : Z) : Prop := r <> w /\ t r = None /\ t w = None.
(** A process before createChild() *)
Definition before (t : fdtable) : cstate := CState t [] [].
(** Everything before the execution works: ptrace(PTRACE_TRACEME), and the descriptors to pass are open *)
Definition ready (os : cos) (t : fdtable) (r w : Z) (pass_fds : list Z) : Prop :=
  co_traceme os = None /\ co_close os r = None /\ Forall (fun fd => t fd <> None) pass_fds.
(** The two processes, seen by the same call of createChild(): the child, and the parent that reads what the child wrote *)
Record creation : Type := Creation {
  cr_fds : fdtable; cr_read : Z; cr_write : Z; cr_pid : Z; cr_maxfd : Z;
  cr_child : cos; cr_parent : cos;
  cr_arguments : list text; cr_no_stdout : bool; cr_env : option (list (text * text)); cr_close_fds : bool; cr_pass_fds : list Z
}.
Definition run_child (c : creation) : cstate * outcome Z :=
  createChild (cr_child c) (cr_maxfd c) (inl (cr_read c, cr_write c)) (inl 0) (cr_arguments c) (cr_no_stdout c) (cr_env c) (cr_close_fds c) (cr_pass_fds c) (before (cr_fds c)).
Definition run_parent (c : creation) : cstate * outcome Z :=
  createChild (cr_parent c) (cr_maxfd c) (inl (cr_read c, cr_write c)) (inl (cr_pid c)) (cr_arguments c) (cr_no_stdout c) (cr_env c) (cr_close_fds c) (cr_pass_fds c) (before (cr_fds c)).
(** The kernel and pickle behave: fresh descriptors, closing works in the parent, the read gives what the child wrote, the
    child is reaped, an exception survives pickle, and interruptions may occur at any call *)
Definition sound_creation (c : creation) : Prop :=
  cr_pid c <> 0 /\ fresh_pipe (cr_fds c) (cr_read c) (cr_write c) /\
  co_close (cr_parent c) (cr_read c) = None /\ co_close (cr_parent c) (cr_write c) = None /\
  (exists k rest, co_read (cr_parent c) = interrupted_read k (c_pipe (fst (run_child c))) rest) /\
  (exists k rest, co_waitpid (cr_parent c) = interrupted k rest) /\ (exists k rest, co_write (cr_child c) = interrupted k rest) /\
  (forall x, exists data, co_dumps (cr_child c) x = inl data /\ data <> [] /\ co_loads (cr_parent c) data = x).
(** The pipe is fresh, none of its ends is passed, and everything before the execution works in the child *)
Definition good_start (c : creation) : Prop :=
  fresh_pipe (cr_fds c) (cr_read c) (cr_write c) /\ ~ In (cr_read c) (cr_pass_fds c) /\ ~ In (cr_write c) (cr_pass_fds c) /\
  ready (cr_child c) (cr_fds c) (cr_read c) (cr_write c) (cr_pass_fds c).
Definition closing (c : creation) : bool := closes (cr_close_fds c) (cr_pass_fds c).
(** The program can be executed *)
Definition executable (c : creation) : Prop := cr_arguments c <> [] /\ co_exec (cr_child c) (cr_arguments c) (cr_env c) = None.
(** The null device can be opened, on descriptor [null], and put in place of the standard output and error *)
Definition null_works (c : creation) (null : Z) : Prop :=
  co_null (cr_child c) = inl null /\ co_dup2 (cr_child c) null 1 = None /\ co_dup2 (cr_child c) 1 2 = None /\ co_close (cr_child c) null = None.
