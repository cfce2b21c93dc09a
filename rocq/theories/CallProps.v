(** * CallProps: C56, C57, C65, the ptrace(2) wrapper (ptrace/binding/func.py, cptrace/cptrace.c). *)
From Coq Require Import ZArith List Bool Lia.
From Verif Require Import PyBase Platform IntSpec CallModel CallSpec CallProofs.
Import ListNotations.
Open Scope Z_scope.

(** ** C56 *)

(** ctypes backend with a libc that clears errno after a successful PEEK (glibc, BSD): one
    system call is made, with the arguments as words; the result is the kernel's
    value, or PtraceError with the kernel's errno. *)
Theorem c56_ctypes : forall p errno0 kernel command pid arg1 arg2 check rq,
  0 <= command < 2 ^ 32 -> check = is_peek command ->
  carries p rq command pid arg1 arg2 ->
  possible_answer p command (kernel rq) ->
  ptrace Ctypes p true errno0 kernel command pid arg1 arg2 check
  = ([rq], match kernel rq with KOk v => Ok v | KErr e => Err (EPtraceError (Some e)) end).
Proof. exact ptrace_ctypes. Qed.
Print Assumptions c56_ctypes.
(** the all-ones word is a value, also right after a failed call (errno0 = 3) *)
Example c56_ctypes_ex :
  ptrace Ctypes linux_x86_64 true 3 (fun _ => KOk (2 ^ 64 - 1)) 1 77 4096 0 true
  = ([Req 1 77 4096 0], Ok (2 ^ 64 - 1)) /\
  possible_answer linux_x86_64 1 (KOk (2 ^ 64 - 1)) /\
  carries linux_x86_64 (Req 1 77 4096 0) 1 77 4096 0.
Proof.
  split; [reflexivity|]. cbn. split; [split; [lia|left; lia]|].
  repeat split; try (exists 0); cbn; try lia.
Qed.

(** C extension: same calls and same split between success and failure, for arguments that fit
    a signed 64-bit integer; but the errno of the error is always 0. *)
Theorem c56_cptrace_partial : forall p clears errno0 kernel command pid arg1 arg2 check rq,
  0 <= command < 2 ^ 32 -> check = is_peek command ->
  signed_64 arg1 -> signed_64 arg2 ->
  carries p rq command pid arg1 arg2 ->
  possible_answer p command (kernel rq) ->
  ptrace Cptrace p clears errno0 kernel command pid arg1 arg2 check
  = ([rq], match kernel rq with KOk v => Ok v | KErr e => Err (EPtraceError (Some 0)) end).
Proof. exact ptrace_cptrace. Qed.
Print Assumptions c56_cptrace_partial.
Example c56_cptrace_partial_ex :
  ptrace Cptrace linux_x86_64 false 3 (fun _ => KOk (2 ^ 64 - 1)) 1 77 4096 0 true
  = ([Req 1 77 4096 0], Ok (2 ^ 64 - 1)).
Proof. reflexivity. Qed.

Theorem c56_cptrace_errno_refuted : exists p kernel pid,
  possible_answer p 16 (kernel (Req 16 pid 0 0)) /\
  kernel (Req 16 pid 0 0) = KErr 3 /\
  ptrace_attach Cptrace p true 0 kernel pid = ([Req 16 pid 0 0], Err (EPtraceError (Some 0))).
Proof. exact errno_lost. Qed.
Print Assumptions c56_cptrace_errno_refuted.

(** C extension: an argument outside the signed 64-bit range (for instance a word with its top bit set) never
    reaches the kernel. *)
Theorem c56_cptrace_out_of_range : forall p clears errno0 kernel command pid arg1 arg2 check,
  ~ (signed_64 arg1 /\ signed_64 arg2) ->
  ptrace Cptrace p clears errno0 kernel command pid arg1 arg2 check = ([], Err EOverflowError).
Proof. exact ptrace_cptrace_over. Qed.
Print Assumptions c56_cptrace_out_of_range.
Example c56_cptrace_out_of_range_ex : ~ (signed_64 4096 /\ signed_64 0xcc00000000000000).
Proof. unfold signed_64. lia. Qed.

(** ctypes with a libc that leaves errno alone (musl): an all-ones word is taken for an error
    when an earlier call had failed. *)
Theorem c56_stale_errno_refuted : exists p kernel errno0 pid addr,
  possible_answer p 1 (kernel (Req 1 pid addr 0)) /\
  kernel (Req 1 pid addr 0) = KOk (2 ^ 64 - 1) /\
  ptrace_peektext Ctypes p false errno0 kernel pid addr
    = ([Req 1 pid addr 0], Err (EPtraceError (Some 3))).
Proof. exact musl_stale_errno. Qed.
Print Assumptions c56_stale_errno_refuted.

(** ** C57 *)

Theorem c57_unaligned_refused : forall be p clears errno0 kernel pid a w,
  ~ (word_size p | a) ->
  ptrace_peektext be p clears errno0 kernel pid a = ([], Err (EPtraceError None)) /\
  ptrace_peekdata be p clears errno0 kernel pid a = ([], Err (EPtraceError None)) /\
  ptrace_peekuser be p clears errno0 kernel pid a = ([], Err (EPtraceError None)) /\
  ptrace_poketext be p clears errno0 kernel pid a w = ([], Err (EPtraceError None)) /\
  ptrace_pokedata be p clears errno0 kernel pid a w = ([], Err (EPtraceError None)) /\
  ptrace_pokeuser be p clears errno0 kernel pid a w = ([], Err (EPtraceError None)).
Proof. exact word_access_unaligned. Qed.
Print Assumptions c57_unaligned_refused.
Example c57_unaligned_refused_ex : ~ (word_size linux_x86_64 | 4100).
Proof. intros [k Hk]. cbn in Hk. lia. Qed.

(** aligned accesses do reach the kernel, exactly once, with that address and word *)
Theorem c57_aligned_peek : forall p errno0 kernel pid a,
  (word_size p | a) -> 0 <= a < 2 ^ (8 * word_size p) -> 0 <= pid < 2 ^ 32 ->
  possible_answer p 1 (kernel (Req 1 pid a 0)) ->
  ptrace_peektext Ctypes p true errno0 kernel pid a
  = ([Req 1 pid a 0],
     match kernel (Req 1 pid a 0) with KOk v => Ok v | KErr e => Err (EPtraceError (Some e)) end).
Proof. exact peektext_aligned. Qed.
Print Assumptions c57_aligned_peek.
Theorem c57_aligned_poke : forall p errno0 kernel pid a w,
  (word_size p | a) -> 0 <= a < 2 ^ (8 * word_size p) -> 0 <= w < 2 ^ (8 * word_size p) ->
  0 <= pid < 2 ^ 32 ->
  possible_answer p 4 (kernel (Req 4 pid a w)) ->
  ptrace_poketext Ctypes p true errno0 kernel pid a w
  = ([Req 4 pid a w],
     match kernel (Req 4 pid a w) with KOk v => Ok tt | KErr e => Err (EPtraceError (Some e)) end).
Proof. exact poketext_aligned. Qed.
Print Assumptions c57_aligned_poke.
Example c57_aligned_ex : (word_size linux_x86_64 | 4104) /\
  ptrace_poketext Ctypes linux_x86_64 true 0 (fun _ => KOk 0) 77 4104 5 = ([Req 4 77 4104 5], Ok tt).
Proof. split; [exists 513; reflexivity|reflexivity]. Qed.

(** ** C65 *)

Theorem c65_event_pid : forall p pid,
  p_bigendian p = false \/ p_64bits p = false -> 0 <= pid < 2 ^ 31 -> geteventmsg_value p pid = Ok pid.
Proof. exact geteventmsg_le. Qed.
Print Assumptions c65_event_pid.
Example c65_event_pid_ex : geteventmsg_value linux_x86_64 4242 = Ok 4242 /\ geteventmsg_value linux_ppc32 4242 = Ok 4242.
Proof. split; reflexivity. Qed.

(** 64-bit big-endian: the high half of the message is read instead *)
Theorem c65_event_pid_big_endian_refuted :
  exists p pid, p = linux_ppc64 /\ pid = 4242 /\ geteventmsg_value p pid = Ok 0.
Proof. exact geteventmsg_be64. Qed.
Print Assumptions c65_event_pid_big_endian_refuted.
