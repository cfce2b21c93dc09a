From Coq Require Import ZArith List Ascii String Bool Lia.
From Verif Require Import PyBase Platform IntModel IntSpec IntProofs CallModel CallSpec CallProofs ReqModel ReqSpec.
Import ListNotations.
Open Scope Z_scope.

Section Req.
  Context (be : backend) (p : platform) (clears : bool) (errno0 : Z) (kernel : request -> kernel_result).
  Notation perform := (perform be p clears errno0 kernel).
  Lemma call_eta {A} (c : call A) : (fst c, match snd c with Ok a => Ok a | Err e => Err e end) = c.
  Proof. destruct c as [l [a|e]]; reflexivity. Qed.
  Definition strip_value (o : operation) (r : res Z) : res Z := if reads_word o then r else match r with Ok _ => Ok 0 | Err e => Err e end.
  (** Every operation amounts to one call of ptrace(), or to none. *)
  Lemma perform_eq o pid : (forall a, word_address o = Some a -> (word_size p | a)) ->
    perform o pid = match kernel_request p o with
                    | Some (c, a, b) => let r := ptrace be p clears errno0 kernel c (subject o pid) a b (reads_word o) in (fst r, strip_value o (snd r))
                    | None => ([], Err ENameError)
                    end.
  Proof.
    intros Ha. unfold strip_value. assert (forall c, value_of (ignore c) = (fst c, match snd c with Ok _ => Ok 0 | Err e => Err e end)) as E by (intros [l [v|e]]; reflexivity).
    destruct o; cbn [word_address] in Ha;
      try (specialize (Ha _ eq_refl); apply aligned_mod in Ha);
      cbn [ReqModel.perform]; unfold kernel_request, linux_request, freebsd_request, openbsd_request, bsd_request, ptrace_traceme, ptrace_attach, ptrace_detach, ptrace_peektext, ptrace_peekdata, ptrace_peekuser, ptrace_poketext, ptrace_pokedata, ptrace_pokeuser, CallModel.peek, CallModel.poke, ptrace_kill, ptrace_setoptions, ptrace_geteventmsg, ptrace_syscall, ptrace_cont, ptrace_singlestep, ptrace_getsiginfo, ptrace_setsiginfo, ptrace_getfpregs, ptrace_setfpregs, ptrace_getfpxregs, ptrace_setfpxregs, ptrace_getregs, ptrace_setregs, ptrace_io, linux_only, undefined, PTRACE_ATTACH, PTRACE_DETACH, PTRACE_SYSCALL, PTRACE_SINGLESTEP, PTRACE_GETREGS, PTRACE_SETREGS, PTRACE_IO, has_ptrace_events, running_linux, running_openbsd;
      try rewrite Ha; cbn [negb reads_word subject]; destruct p as [[] [] be' []]; cbn [p_os p_cpu p_64bits is_powerpc]; rewrite ?E; try reflexivity; apply surjective_pairing.
  Qed.
  Lemma request_small o c a b : kernel_request p o = Some (c, a, b) -> 0 <= c < 2 ^ 32 /\ reads_word o = is_peek c.
  Proof.
    unfold kernel_request, linux_request, freebsd_request, openbsd_request, bsd_request. intros H.
    destruct (p_os p), o; try discriminate H; try destruct (p_cpu p); try destruct (p_64bits p); try discriminate H; injection H as <- <- <-; (split; [lia|reflexivity]).
  Qed.
  Lemma perform_spec o pid c a b rq : (clears = true \/ be = Cptrace) -> (be = Cptrace -> signed_64 a /\ signed_64 b) ->
    (forall x, word_address o = Some x -> (word_size p | x)) -> kernel_request p o = Some (c, a, b) ->
    carries p rq c (subject o pid) a b -> possible_answer p c (kernel rq) ->
    perform o pid = ([rq], match kernel rq with
                           | KOk v => Ok (if reads_word o then v else 0)
                           | KErr e => Err (EPtraceError (Some (match be with Ctypes => e | Cptrace => 0 end)))
                           end).
  Proof.
    intros Hc Hs Ha Hr Hq Hk. rewrite perform_eq by exact Ha. rewrite Hr. destruct (request_small _ _ _ _ Hr) as [H1 H2]. apply carries_unique in Hq. subst rq. cbv zeta. rewrite ptrace_result; auto.
    - cbn [fst snd]. f_equal. unfold strip_value, expected. destruct (kernel _); destruct (reads_word o); reflexivity.
    - destruct be; [apply c_args_ctypes|]. destruct (Hs eq_refl). now apply c_args_cptrace.
  Qed.
  Lemma perform_none o pid : kernel_request p o = None -> perform o pid = ([], Err ENameError).
  Proof.
    intros H. rewrite perform_eq; [now rewrite H|]. intros x Hx. exfalso. unfold kernel_request, linux_request, freebsd_request, openbsd_request, bsd_request in H. destruct (p_os p), o; try discriminate.
  Qed.
End Req.
