(** * CallSpec: what the kernel may answer, and the calls one expects to see. *)
From Coq Require Import ZArith List Bool.
From Verif Require Import PyBase Platform CallModel IntSpec.
Import ListNotations.
Open Scope Z_scope.

(** Answers a kernel can give to a request: a word on success, which for requests other than
    PEEKTEXT/PEEKDATA/PEEKUSER (1, 2, 3) is never the all-ones word, and a non-zero errno on failure. *)
Definition possible_answer (p : platform) (command : Z) (k : kernel_result) : Prop :=
  match k with
  | KOk v => 0 <= v < 2 ^ (8 * word_size p) /\
             (1 <= command <= 3 \/ v <> 2 ^ (8 * word_size p) - 1)
  | KErr e => e <> 0
  end.

(** [rq] carries the given integers as unsigned words. *)
Definition carries (p : platform) (rq : request) (command pid arg1 arg2 : Z) : Prop :=
  let n := 8 * word_size p in
  unsigned_of n command (rq_command rq) /\ unsigned_of n pid (rq_pid rq) /\
  unsigned_of n arg1 (rq_arg1 rq) /\ unsigned_of n arg2 (rq_arg2 rq).

(** The range of a C [long long], which is what the C extension accepts. *)
Definition signed_64 (v : Z) : Prop := - 2 ^ 63 <= v < 2 ^ 63.
