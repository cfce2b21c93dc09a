(** * ReqProps: C72, the requests that reach the kernel. *)
From Coq Require Import ZArith List Ascii String Bool Lia.
From Verif Require Import PyBase Platform IntSpec CallModel CallSpec ReqModel ReqSpec ReqProofs.
Import ListNotations.
Open Scope Z_scope.

(** Every wrapper makes exactly the request of its operating system, and reports what the kernel answers. *)
Theorem c72_request : forall be p clears errno0 kernel o pid c a b rq,
  (clears = true \/ be = Cptrace) -> (be = Cptrace -> signed_64 a /\ signed_64 b) ->
  (forall x, word_address o = Some x -> (word_size p | x)) ->
  kernel_request p o = Some (c, a, b) -> carries p rq c (subject o pid) a b -> possible_answer p c (kernel rq) ->
  perform be p clears errno0 kernel o pid =
    ([rq], match kernel rq with
           | KOk v => Ok (if reads_word o then v else 0)
           | KErr e => Err (EPtraceError (Some (match be with Ctypes => e | Cptrace => 0 end)))
           end).
Proof. exact perform_spec. Qed.
Print Assumptions c72_request.
(** A request that the system does not have is a NameError, and the kernel is not asked. *)
Theorem c72_missing : forall be p clears errno0 kernel o pid, kernel_request p o = None -> perform be p clears errno0 kernel o pid = ([], Err ENameError).
Proof. exact perform_none. Qed.
Print Assumptions c72_missing.
Example c72_ex : perform Ctypes openbsd_i386 true 0 (fun _ => KOk 0) (Detach 9) 77 = ([Req 10 77 0 9], Ok 0) /\
  perform Ctypes linux_aarch64 true 0 (fun _ => KOk 0) (GetRegs 4096 8192) 77 = ([Req 0x4204 77 1 8192], Ok 0) /\
  perform Ctypes freebsd_x86_64 true 0 (fun _ => KErr 3) (Continue 10) 77 = ([Req 7 77 1 10], Err (EPtraceError (Some 3))) /\
  carries linux_aarch64 (Req 0x4204 77 1 8192) 0x4204 77 1 8192 /\ possible_answer linux_aarch64 0x4204 (KOk 0).
Proof. repeat split; try reflexivity; try (exists 0; reflexivity); cbn; try lia. Qed.
