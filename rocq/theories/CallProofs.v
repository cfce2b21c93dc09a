From Coq Require Import ZArith List Ascii String Bool Lia.
From Verif Require Import PyBase PyFacts Platform IntModel IntSpec IntProofs CallModel CallSpec.
Import ListNotations.
Open Scope Z_scope.

Lemma truncate_word_mod p v : truncateWord p v = v mod 2 ^ wbits p.
Proof.
  eapply unsigned_unique with (n := wbits p) (v := v).
  - destruct (wbits_cases p) as [[_ ->]|[_ ->]]; lia.
  - apply truncateWord_spec.
  - apply unsigned_mod. destruct (wbits_cases p) as [[_ ->]|[_ ->]]; lia.
Qed.
Lemma truncate_word_small p v : 0 <= v < 2 ^ wbits p -> truncateWord p v = v.
Proof. intros. rewrite truncate_word_mod. apply Z.mod_small; lia. Qed.
Lemma wbits_eq p : 8 * word_size p = wbits p.
Proof. reflexivity. Qed.
Lemma small_word p v : 0 <= v < 2 ^ 32 -> 0 <= v < 2 ^ wbits p.
Proof. destruct (wbits_cases p) as [[_ ->]|[_ ->]]; lia. Qed.

Lemma ulong_minus1 p v : 0 <= v < 2 ^ wbits p ->
  (ulong2long p v =? -1) = (v =? 2 ^ wbits p - 1).
Proof.
  intros H.
  destruct (ulong2long_spec p v) as [Hr [k Hk]].
  assert (2 <= 2 ^ (wbits p - 1)) by (destruct (wbits_cases p) as [[_ ->]|[_ ->]]; lia).
  assert (2 ^ wbits p = 2 * 2 ^ (wbits p - 1)) by (destruct (wbits_cases p) as [[_ ->]|[_ ->]]; lia).
  assert (k = 0 \/ k = 1) as [-> | ->] by nia; apply eq_true_iff_eq; rewrite !Z.eqb_eq; lia.
Qed.
Lemma max_uint_eq p : max_uint p = 2 ^ wbits p - 1.
Proof. unfold max_uint. destruct (wbits_cases p) as [[-> ->]|[-> ->]]; reflexivity. Qed.
Lemma max_uint_range p : 0 <= max_uint p < 2 ^ wbits p.
Proof. rewrite max_uint_eq. destruct (wbits_cases p) as [[_ ->]|[_ ->]]; lia. Qed.

Definition the_request p command pid arg1 arg2 : request :=
  Req (truncateWord p command) (truncateWord p pid) (truncateWord p arg1) (truncateWord p arg2).
Lemma the_request_carries p c i a b : carries p (the_request p c i a b) c i a b.
Proof. repeat split; apply truncateWord_spec. Qed.
Lemma carries_unique p rq c i a b : carries p rq c i a b -> rq = the_request p c i a b.
Proof.
  intros (H1 & H2 & H3 & H4). rewrite wbits_eq in *. destruct rq as [rc ri ra rb]. unfold the_request.
  assert (0 <= wbits p) by (destruct (wbits_cases p) as [[_ ->]|[_ ->]]; lia).
  f_equal; eapply unsigned_unique; eauto; apply truncateWord_spec.
Qed.

Lemma c_args_ctypes p c i a b : c_args Ctypes p c i a b = Ok (the_request p c i a b).
Proof. reflexivity. Qed.
Lemma c_args_cptrace p c i a b : signed_64 a -> signed_64 b ->
  c_args Cptrace p c i a b = Ok (the_request p c i a b).
Proof.
  unfold signed_64, c_args. intros.
  replace (a <? - 2 ^ 63) with false by lia. replace (2 ^ 63 <=? a) with false by lia.
  replace (b <? - 2 ^ 63) with false by lia. replace (2 ^ 63 <=? b) with false by lia.
  reflexivity.
Qed.
Lemma c_args_cptrace_over p c i a b : ~ (signed_64 a /\ signed_64 b) ->
  c_args Cptrace p c i a b = Err EOverflowError.
Proof.
  unfold signed_64, c_args. intros H.
  destruct ((a <? - 2 ^ 63) || (2 ^ 63 <=? a) || (b <? - 2 ^ 63) || (2 ^ 63 <=? b)) eqn:E; [reflexivity|].
  exfalso. apply H. rewrite !orb_false_iff, !Z.ltb_ge, !Z.leb_gt in E. lia.
Qed.

Definition expected (be : backend) (k : kernel_result) : res Z :=
  match k with
  | KOk v => Ok v
  | KErr e => Err (EPtraceError (Some (match be with Ctypes => e | Cptrace => 0 end)))
  end.

Lemma ptrace_result be p clears errno0 kernel c i a b check :
  0 <= c < 2 ^ 32 -> check = is_peek c ->
  (clears = true \/ be = Cptrace) ->
  c_args be p c i a b = Ok (the_request p c i a b) ->
  possible_answer p c (kernel (the_request p c i a b)) ->
  ptrace be p clears errno0 kernel c i a b check
  = ([the_request p c i a b], expected be (kernel (the_request p c i a b))).
Proof.
  intros Hc -> Hcl Ha Hk. unfold ptrace. rewrite Ha.
  set (rq := the_request p c i a b) in *.
  assert (Hrc : rq_command rq = c).
  { unfold rq; cbn. apply truncate_word_small. now apply small_word. }
  unfold libc_ptrace, expected. destruct (kernel rq) as [v|e]; unfold possible_answer in Hk.
  - rewrite wbits_eq in Hk. destruct Hk as [Hv Hn].
    rewrite ulong_minus1 by assumption. f_equal. rewrite Hrc.
    destruct (v =? 2 ^ wbits p - 1) eqn:Ev; [|reflexivity].
    apply Z.eqb_eq in Ev. destruct Hn as [Hn|Hn]; [|contradiction].
    assert (is_peek c = true) as -> by (unfold is_peek; lia).
    cbn. destruct be; destruct clears; cbn; try reflexivity; destruct Hcl; discriminate.
  - f_equal. rewrite ulong_minus1 by apply max_uint_range. rewrite max_uint_eq, Z.eqb_refl.
    replace (e =? 0) with false by lia. cbn. rewrite orb_true_r. destruct be; reflexivity.
Qed.

Lemma ptrace_ctypes p errno0 kernel c i a b check rq :
  0 <= c < 2 ^ 32 -> check = is_peek c -> carries p rq c i a b ->
  possible_answer p c (kernel rq) ->
  ptrace Ctypes p true errno0 kernel c i a b check
  = ([rq], match kernel rq with KOk v => Ok v | KErr e => Err (EPtraceError (Some e)) end).
Proof.
  intros Hc Hch Hr Hk. apply carries_unique in Hr. subst rq.
  rewrite ptrace_result; auto.
Qed.
Lemma ptrace_cptrace p clears errno0 kernel c i a b check rq :
  0 <= c < 2 ^ 32 -> check = is_peek c -> signed_64 a -> signed_64 b -> carries p rq c i a b ->
  possible_answer p c (kernel rq) ->
  ptrace Cptrace p clears errno0 kernel c i a b check
  = ([rq], match kernel rq with KOk v => Ok v | KErr e => Err (EPtraceError (Some 0)) end).
Proof.
  intros Hc Hch Ha Hb Hr Hk. apply carries_unique in Hr. subst rq.
  rewrite ptrace_result; auto using c_args_cptrace.
Qed.
Lemma ptrace_cptrace_over p clears errno0 kernel c i a b check :
  ~ (signed_64 a /\ signed_64 b) ->
  ptrace Cptrace p clears errno0 kernel c i a b check = ([], Err EOverflowError).
Proof. intros H. unfold ptrace. now rewrite c_args_cptrace_over. Qed.

Lemma errno_lost : exists p kernel pid,
  possible_answer p 16 (kernel (Req 16 pid 0 0)) /\
  kernel (Req 16 pid 0 0) = KErr 3 /\
  ptrace_attach Cptrace p true 0 kernel pid = ([Req 16 pid 0 0], Err (EPtraceError (Some 0))).
Proof. exists linux_x86_64, (fun _ => KErr 3), 4242. repeat split; discriminate. Qed.

Lemma musl_stale_errno : exists p kernel errno0 pid addr,
  possible_answer p 1 (kernel (Req 1 pid addr 0)) /\
  kernel (Req 1 pid addr 0) = KOk (2 ^ 64 - 1) /\
  ptrace_peektext Ctypes p false errno0 kernel pid addr
    = ([Req 1 pid addr 0], Err (EPtraceError (Some 3))).
Proof.
  exists linux_x86_64, (fun _ => KOk (2 ^ 64 - 1)), 3, 4242, 4096.
  split; [|split; reflexivity]. cbn. split; [lia|left; lia].
Qed.

Lemma peek_unaligned be p clears errno0 kernel c pid a :
  ~ (word_size p | a) -> peek be p clears errno0 kernel c pid a = ([], Err (EPtraceError None)).
Proof.
  intros H. unfold peek. destruct (a mod word_size p =? 0) eqn:E; [|reflexivity].
  exfalso. apply H. apply Z.eqb_eq in E. apply Z.mod_divide in E; auto.
  unfold word_size; destruct (p_64bits p); lia.
Qed.
Lemma poke_unaligned be p clears errno0 kernel c pid a w :
  ~ (word_size p | a) -> poke be p clears errno0 kernel c pid a w = ([], Err (EPtraceError None)).
Proof.
  intros H. unfold poke. destruct (a mod word_size p =? 0) eqn:E; [|reflexivity].
  exfalso. apply H. apply Z.eqb_eq in E. apply Z.mod_divide in E; auto.
  unfold word_size; destruct (p_64bits p); lia.
Qed.
Lemma word_access_unaligned be p clears errno0 kernel pid a w :
  ~ (word_size p | a) ->
  ptrace_peektext be p clears errno0 kernel pid a = ([], Err (EPtraceError None)) /\
  ptrace_peekdata be p clears errno0 kernel pid a = ([], Err (EPtraceError None)) /\
  ptrace_peekuser be p clears errno0 kernel pid a = ([], Err (EPtraceError None)) /\
  ptrace_poketext be p clears errno0 kernel pid a w = ([], Err (EPtraceError None)) /\
  ptrace_pokedata be p clears errno0 kernel pid a w = ([], Err (EPtraceError None)) /\
  ptrace_pokeuser be p clears errno0 kernel pid a w = ([], Err (EPtraceError None)).
Proof. intros H. repeat split; now (apply peek_unaligned || apply poke_unaligned). Qed.

Lemma aligned_mod p a : (word_size p | a) -> (a mod word_size p =? 0) = true.
Proof.
  intros H. apply Z.eqb_eq. apply Z.mod_divide; auto. unfold word_size; destruct (p_64bits p); lia.
Qed.
Lemma peektext_aligned p errno0 kernel pid a :
  (word_size p | a) -> 0 <= a < 2 ^ (8 * word_size p) -> 0 <= pid < 2 ^ 32 ->
  possible_answer p 1 (kernel (Req 1 pid a 0)) ->
  ptrace_peektext Ctypes p true errno0 kernel pid a
  = ([Req 1 pid a 0],
     match kernel (Req 1 pid a 0) with KOk v => Ok v | KErr e => Err (EPtraceError (Some e)) end).
Proof.
  intros Hd Ha Hp Hk. unfold ptrace_peektext, peek. rewrite aligned_mod by assumption. cbn [negb].
  apply ptrace_ctypes; auto; try reflexivity; unfold PTRACE_PEEKTEXT; try lia.
  repeat split; try apply unsigned_self; cbn; try lia; auto using small_word.
  all: rewrite ?wbits_eq; try apply small_word; try lia.
Qed.
Lemma poketext_aligned p errno0 kernel pid a w :
  (word_size p | a) -> 0 <= a < 2 ^ (8 * word_size p) -> 0 <= w < 2 ^ (8 * word_size p) ->
  0 <= pid < 2 ^ 32 ->
  possible_answer p 4 (kernel (Req 4 pid a w)) ->
  ptrace_poketext Ctypes p true errno0 kernel pid a w
  = ([Req 4 pid a w],
     match kernel (Req 4 pid a w) with KOk v => Ok tt | KErr e => Err (EPtraceError (Some e)) end).
Proof.
  intros Hd Ha Hw Hp Hk. unfold ptrace_poketext, poke. rewrite aligned_mod by assumption. cbn [negb].
  erewrite ptrace_ctypes with (rq := Req 4 pid a w); auto; try reflexivity; unfold PTRACE_POKETEXT; try lia.
  - unfold ignore; cbn. destruct (kernel _); reflexivity.
  - repeat split; try apply unsigned_self; cbn; try lia; auto using small_word.
    all: rewrite ?wbits_eq; try apply small_word; try lia.
Qed.

(** ** geteventmsg *)
Lemma le_value_firstn4 m : 0 <= m -> le_value (firstn 4 (le_bytes 8 m)) = m mod 2 ^ 32.
Proof.
  intros Hm. cbn [le_bytes firstn le_value].
  rewrite !b2z_z2b, !Z.mod_mod by lia. rewrite !Z.div_div by lia.
  change (256 * 256) with 65536. change (65536 * 256) with 16777216.
  assert (forall a, a mod 256 = a - 256 * (a / 256)) as E by (intros a; pose proof (Z.div_mod a 256); lia).
  rewrite !E, !Z.div_div by lia.
  change (256 * 256) with 65536. change (65536 * 256) with 16777216. change (16777216 * 256) with (2 ^ 32).
  pose proof (Z.div_mod m (2 ^ 32)). lia.
Qed.
Lemma geteventmsg_le p pid :
  p_bigendian p = false \/ p_64bits p = false -> 0 <= pid < 2 ^ 31 -> geteventmsg_value p pid = Ok pid.
Proof.
  intros Hp Hr. unfold geteventmsg_value, word2bytes, word_bytes, word_size.
  assert (Hs : uint2int32 pid = pid).
  { eapply signed_unique with (n := 32) (v := pid); [lia|apply uint2int32_spec|apply signed_self; lia]. }
  destruct (p_64bits p) eqn:E64.
  - destruct Hp as [Hp|Hp]; [|discriminate]. rewrite Hp.
    change (Z.to_nat 8) with 8%nat. rewrite pack_ok by (cbn; lia). cbn [bind].
    unfold unpack_uint.
    assert (List.length (firstn 4 (le_bytes 8 pid)) = 4%nat) as HL
      by (rewrite firstn_length, le_bytes_length; reflexivity).
    rewrite HL. cbn [Nat.eqb bind]. rewrite le_value_firstn4 by lia. rewrite Z.mod_small by lia.
    now rewrite Hs.
  - change (Z.to_nat 4) with 4%nat. rewrite pack_ok by (cbn; lia). cbn [bind].
    assert (firstn 4 (if p_bigendian p then rev (le_bytes 4 pid) else le_bytes 4 pid)
            = (if p_bigendian p then rev (le_bytes 4 pid) else le_bytes 4 pid)) as ->.
    { apply firstn_all2. destruct (p_bigendian p); rewrite ?rev_length, le_bytes_length; lia. }
    erewrite pack_unpack by (apply pack_ok; cbn; lia). cbn [bind]. now rewrite Hs.
Qed.
Lemma geteventmsg_be64 : exists p pid, p = linux_ppc64 /\ pid = 4242 /\ geteventmsg_value p pid = Ok 0.
Proof. exists linux_ppc64, 4242. repeat split. Qed.
