(** * GdbEventSpec: what gdb.py does with the events and the errors that stop a command.  Independent of the model, except for its calls and lines. *)
From Coq Require Import ZArith List Ascii String Bool.
From Verif Require Import PyBase DbgModel GdbModel GdbSpec GdbCmdSpec.
Import ListNotations.
Open Scope Z_scope.

(** The process that becomes the current one: the first of the list, if there is any *)
Definition first_of (current : nat) (l : list nat) : nat := match l with q :: _ => q | [] => current end.
(** A change of the current process is told. *)
Definition tells_switch (current q : nat) : list (gcall * ans) := if Nat.eq_dec current q then [] else [line (LSwitch q)].
(** The debugger is asked for its processes, the first one becomes the current process. *)
Definition next_one (current : nat) (l : list nat) : list (gcall * ans) := (CProcesses, AProcs l) :: tells_switch current (first_of current l).
(** The question about a dead process *)
Definition no_such_process : exn := EPtraceError (Some 3).
