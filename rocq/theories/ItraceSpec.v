(** * ItraceSpec: the vocabulary of the properties about examples/itrace.py. *)
From Coq Require Import ZArith List Ascii String Bool.
From Verif Require Import PyBase DbgModel DbgSpec StraceModel ItraceModel.
Import ListNotations.
Open Scope Z_scope.

(** The requests that let a process run *)
Definition resumes (c : kcall) : bool := match c with KCont _ _ _ | KSyscall _ _ _ | KStep _ _ => true | _ => false end.
(** The lines 0, 1, ... *)
Fixpoint counted (n : nat) (i : Z) : list tline := match n with O => [] | S n => LLine (str_int i) :: counted n (i + 1) end.
(** "step number, process, [address]": the address has at least eight hexadecimal digits *)
Definition step_text (i pid eip : Z) (l : text) : Prop :=
  exists h, l = str_int i ++ T " " ++ str_int pid ++ T " [" ++ h ++ T "]" /\ (0 <= eip -> h = padl 8 "0"%char (digits 16 eip)).
(** The last line: the process has ended or was stopped by a signal other than SIGTRAP (5, with or without the bit of system calls) *)
Definition last_text (ev : option event) (l : text) : Prop :=
  match ev with
  | Some (ProcessExit _ _ _) => l = T "process exit"
  | Some (ProcessSignal signum _) => signum <> 5 /\ signum <> 5 + 128 /\ l = T "died with signal " ++ str_int signum
  | _ => False
  end.
(** The lines of the steps made after the given numbers of requests *)
Fixpoint step_lines (ip : nat -> nat -> res Z) (id : nat) (pid i : Z) (times : list nat) (lines : list tline) : Prop :=
  match times, lines with
  | [], [] => True
  | n :: times, l :: lines => (exists eip t, ip n id = Ok eip /\ l = LLine t /\ step_text i pid eip t) /\ step_lines ip id pid (i + 1) times lines
  | _, _ => False
  end.
(** The process object [id] is that of the process [pid] *)
Definition has_pid (d : dstate) (id : nat) (pid : Z) : Prop := exists q, nth_error (d_procs d) id = Some q /\ pr_pid q = pid.
