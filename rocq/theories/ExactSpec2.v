(** * ExactSpec2: vocabulary for further exact conditions. *)
From Coq Require Import ZArith List Ascii String.
From Verif Require Import PyBase SigModel.
Import ListNotations.
Open Scope Z_scope.

(** What is said of a child that exits with the code [c], which is taken for a status of waitpid() *)
Definition wrong_exit_text (ns : namespace) (c : Z) : text :=
  if c =? 0 then T " exited normally"
  else if c =? 127 then T " stopped by signal " ++ signalName ns 0
  else if c =? 128 then T " exited normally (core dumped)"
  else if c =? 255 then T " exited normally (core dumped)"
  else if c <? 127 then T " killed by signal " ++ signalName ns c
  else T " killed by signal " ++ signalName ns (c - 128) ++ T " (core dumped)".
