(** * SigSpec: vocabulary for statements about signal names and messages. *)
From Coq Require Import ZArith List Ascii String Bool.
From Verif Require Import PyBase KernSpec SigModel.
Import ListNotations.
Open Scope Z_scope.

(** [name] is a SIG* name of the module for the number. *)
Definition names_signal (ns : namespace) (signum : Z) (name : text) : Prop :=
  In (name, signum) ns /\ exists rest, name = T "SIG" ++ rest.
Definition known_signal (ns : namespace) (signum : Z) : Prop := signum <> 0 /\ exists name, names_signal ns signum name.
(** Preferred names, best first. *)
Definition preferred : list text := [T "SIGABRT"; T "SIGHUP"; T "SIGCHLD"; T "SIGPOLL"].
(** [x] comes before [y] in the list [l]. *)
Definition before {A} (l : list A) (x y : A) : Prop := exists a b c, l = a ++ x :: b ++ y :: c.
(** asm-generic/signal.h and POSIX: the signals of Linux (x86), the name preferred among SIGABRT/SIGIOT, SIGCHLD/SIGCLD and SIGPOLL/SIGIO
    first; SIGRTMIN is 34, as two of the real-time signals belong to the C library *)
Definition linux_header_signals : list (Z * text) :=
  from 1 "SIGHUP SIGINT SIGQUIT SIGILL SIGTRAP SIGABRT SIGBUS SIGFPE SIGKILL SIGUSR1 SIGSEGV SIGUSR2 SIGPIPE SIGALRM SIGTERM SIGSTKFLT
          SIGCHLD SIGCONT SIGSTOP SIGTSTP SIGTTIN SIGTTOU SIGURG SIGXCPU SIGXFSZ SIGVTALRM SIGPROF SIGWINCH SIGPOLL SIGPWR SIGSYS" ++
  [(34, T "SIGRTMIN"); (64, T "SIGRTMAX")].
