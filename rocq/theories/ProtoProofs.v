(** * ProtoProofs: the shipped prototypes against linux/syscalls.h. *)
From Coq Require Import ZArith List Ascii String Bool.
From Verif Require Import PyBase TabModel GenModel GenSpec ProtoSpec.
Import ListNotations.
Open Scope Z_scope.

Lemma from_header : codegen syscalls_h = Ok (table_lines (map as_declared BASE_PROTOTYPES)).
Proof. vm_compute. reflexivity. Qed.
