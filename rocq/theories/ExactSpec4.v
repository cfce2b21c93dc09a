(** * ExactSpec4: when /proc/pid/mem is used. *)
From Coq Require Import ZArith List.
From Verif Require Import PyBase MemModel.

(** /proc/pid/mem is open or can be opened, and has not been given up. *)
Definition uses_file (E : penv) (s : pstate) : Prop :=
  s_fallback s = false /\ (s_file s = FileOpen \/ (s_file s = FileNone /\ e_open E = Ok tt)).
