(** * ExactSpec3: vocabulary for sets on big-endian processors. *)
From Coq Require Import ZArith.
From Verif Require Import PyBase Platform.
Open Scope Z_scope.

(** The number of a bit after the bytes of each machine word have been reversed *)
Definition mirror (p : platform) (i : Z) : Z :=
  let W := word_size p in
  i / (8 * W) * (8 * W) + (W - 1 - i mod (8 * W) / 8) * 8 + i mod 8.
