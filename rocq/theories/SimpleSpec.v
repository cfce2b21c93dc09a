(** * SimpleSpec: what the smallest debugger is for. *)
From Coq Require Import ZArith List Ascii String Bool.
From Verif Require Import PyBase Platform DbgModel DbgSpec SigModel SimpleModel.
Import ListNotations.
Open Scope Z_scope.

Definition is_attach (c : kcall) : bool := match c with KAttach _ => true | _ => false end.
(** what is written when nothing goes wrong; [regs]: the lines of the registers, [ev]: the text of the event *)
Definition dialogue (regs : list text) (ev : text) : list note :=
  [Printed (T "Dump process registers")] ++ map Logged regs ++
  [Printed (T "Continue process execution"); Printed (T "Wait next process event..."); Printed (T "New process event: " ++ ev)].
