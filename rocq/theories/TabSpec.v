(** * TabSpec: vocabulary for statements about the tables. *)
From Coq Require Import ZArith List Ascii String Bool.
From Verif Require Import PyBase Platform TabModel.
Import ListNotations.
Open Scope Z_scope.

(** The prototype of a system call: types and names of its arguments *)
Definition has_prototype (name restype : text) (formats : list (text * text)) : Prop :=
  In (name, (restype, formats)) SYSCALL_PROTOTYPES.
Definition has_number (p : platform) (n : Z) (name : text) : Prop :=
  exists table, SYSCALL_NAMES p = Ok table /\ In (n, name) table.
