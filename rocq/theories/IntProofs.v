(** * IntProofs: lemmas about IntModel. *)
From Coq Require Import ZArith List Ascii String Bool Lia.
From Verif Require Import PyBase PyFacts Platform IntModel IntSpec.
Import ListNotations.
Open Scope Z_scope.

Lemma land_mask v n : 0 <= n -> Z.land v (2 ^ n - 1) = v mod 2 ^ n.
Proof.
  intros H. rewrite <- Z.land_ones by auto. f_equal. rewrite Z.ones_equiv. lia.
Qed.

Lemma mask64 v : Z.land v 0xffffffffffffffff = v mod 2 ^ 64.
Proof. now rewrite <- land_mask. Qed.
Lemma mask32 v : Z.land v 0xffffffff = v mod 2 ^ 32.
Proof. now rewrite <- land_mask. Qed.

Lemma unsigned_mod n v : 0 <= n -> unsigned_of n v (v mod 2 ^ n).
Proof.
  intros H. assert (0 < 2 ^ n) by (apply Z.pow_pos_nonneg; lia).
  split; [apply Z.mod_pos_bound; lia|]. exists (v / 2 ^ n).
  rewrite (Z.div_mod v (2 ^ n)) at 1 by lia. ring.
Qed.

Lemma unsigned_unique n v u1 u2 : 0 <= n -> unsigned_of n v u1 -> unsigned_of n v u2 -> u1 = u2.
Proof.
  intros Hn [H1 [k1 E1]] [H2 [k2 E2]]. assert (0 < 2 ^ n) by (apply Z.pow_pos_nonneg; lia).
  assert ((k1 - k2) * 2 ^ n = u2 - u1) by lia.
  assert (k1 = k2) by nia. lia.
Qed.

Lemma signed_unique n v u1 u2 : 1 <= n -> signed_of n v u1 -> signed_of n v u2 -> u1 = u2.
Proof.
  intros Hn [H1 [k1 E1]] [H2 [k2 E2]]. assert (0 < 2 ^ (n - 1)) by (apply Z.pow_pos_nonneg; lia).
  assert (2 ^ n = 2 * 2 ^ (n - 1)) as E. { rewrite <- Z.pow_succ_r by lia. f_equal. lia. }
  rewrite E in *. assert (k1 = k2) by nia. lia.
Qed.

(** the sign bit test *)
Lemma sign_bit v n : 0 <= n -> 0 <= v < 2 ^ (n + 1) ->
  (Z.land v (2 ^ n) =? 0) = (v <? 2 ^ n).
Proof.
  intros Hn Hv. assert (0 < 2 ^ n) by (apply Z.pow_pos_nonneg; lia).
  assert (E : 2 ^ (n + 1) = 2 * 2 ^ n) by (rewrite Z.pow_add_r by lia; lia).
  assert (Hb : Z.testbit v n = negb (v <? 2 ^ n)).
  { destruct (v <? 2 ^ n) eqn:L; [apply Z.ltb_lt in L|apply Z.ltb_ge in L]; simpl.
    - destruct (Z.eq_dec v 0) as [->|]; [apply Z.bits_0|].
      apply Z.bits_above_log2; [lia|]. apply Z.log2_lt_pow2; lia.
    - rewrite Z.testbit_true by auto.
      replace (v / 2 ^ n) with 1; [reflexivity|].
      apply Z.div_unique with (v - 2 ^ n); lia. }
  destruct (v <? 2 ^ n) eqn:L; simpl in Hb.
  - apply Z.eqb_eq. apply Z.bits_inj'. intros i Hi. rewrite Z.land_spec, Z.pow2_bits_eqb, Z.bits_0 by auto.
    destruct (Z.eqb_spec n i); [subst; now rewrite Hb|]. apply andb_false_r.
  - apply Z.eqb_neq. intros H0.
    assert (Z.testbit (Z.land v (2 ^ n)) n = true) as Ht.
    { rewrite Z.land_spec, Z.pow2_bits_true, Hb by auto. reflexivity. }
    rewrite H0, Z.bits_0 in Ht. easy.
Qed.

Lemma signed_cond n v : 1 <= n ->
  signed_of n v (if Z.land (v mod 2 ^ n) (2 ^ (n - 1)) =? 0 then v mod 2 ^ n else v mod 2 ^ n - 2 ^ n).
Proof.
  intros Hn. destruct (unsigned_mod n v ltac:(lia)) as [Hr [k Hk]].
  assert (E : 2 ^ n = 2 * 2 ^ (n - 1)). { rewrite <- Z.pow_succ_r by lia. f_equal. lia. }
  rewrite sign_bit; [|lia|replace (n - 1 + 1) with n by lia; lia].
  destruct (v mod 2 ^ n <? 2 ^ (n - 1)) eqn:L; [apply Z.ltb_lt in L|apply Z.ltb_ge in L].
  - split; [lia|]. now exists k.
  - split; [lia|]. exists (k + 1). lia.
Qed.

Lemma int2uint64_spec v : unsigned_of 64 v (int2uint64 v).
Proof. unfold int2uint64. rewrite mask64. now apply unsigned_mod. Qed.
Lemma int2uint32_spec v : unsigned_of 32 v (int2uint32 v).
Proof. unfold int2uint32. rewrite mask32. now apply unsigned_mod. Qed.
Lemma truncateWord64_spec v : unsigned_of 64 v (truncateWord64 v).
Proof. exact (int2uint64_spec v). Qed.
Lemma truncateWord32_spec v : unsigned_of 32 v (truncateWord32 v).
Proof. exact (int2uint32_spec v). Qed.
Lemma uint2int64_spec v : signed_of 64 v (uint2int64 v).
Proof.
  unfold uint2int64. rewrite mask64. apply (signed_cond 64 v). lia.
Qed.
Lemma uint2int32_spec v : signed_of 32 v (uint2int32 v).
Proof.
  unfold uint2int32. rewrite mask32. apply (signed_cond 32 v). lia.
Qed.

Lemma unsigned_self n v : 0 <= v < 2 ^ n -> unsigned_of n v v.
Proof. intros H. split; auto. exists 0. lia. Qed.
Lemma signed_self n v : - 2 ^ (n - 1) <= v < 2 ^ (n - 1) -> signed_of n v v.
Proof. intros H. split; auto. exists 0. lia. Qed.
Lemma signed_of_unsigned n v u s : unsigned_of n v u -> signed_of n u s -> signed_of n v s.
Proof. intros [_ [k E]] [H [k2 E2]]. split; auto. exists (k + k2). lia. Qed.
Lemma unsigned_of_signed n v u s : signed_of n v s -> unsigned_of n s u -> unsigned_of n v u.
Proof. intros [_ [k E]] [H [k2 E2]]. split; auto. exists (k + k2). lia. Qed.

Lemma roundtrip_s64 v : - 2 ^ 63 <= v < 2 ^ 63 -> uint2int64 (int2uint64 v) = v.
Proof.
  intros H. apply (signed_unique 64 v); [lia| |now apply (signed_self 64)].
  eapply signed_of_unsigned; [apply int2uint64_spec|apply uint2int64_spec].
Qed.
Lemma roundtrip_s32 v : - 2 ^ 31 <= v < 2 ^ 31 -> uint2int32 (int2uint32 v) = v.
Proof.
  intros H. apply (signed_unique 32 v); [lia| |now apply (signed_self 32)].
  eapply signed_of_unsigned; [apply int2uint32_spec|apply uint2int32_spec].
Qed.
Lemma roundtrip_u64 v : 0 <= v < 2 ^ 64 -> int2uint64 (uint2int64 v) = v.
Proof.
  intros H. apply (unsigned_unique 64 v); [lia| |now apply unsigned_self].
  eapply unsigned_of_signed; [apply uint2int64_spec|apply int2uint64_spec].
Qed.
Lemma roundtrip_u32 v : 0 <= v < 2 ^ 32 -> int2uint32 (uint2int32 v) = v.
Proof.
  intros H. apply (unsigned_unique 32 v); [lia| |now apply unsigned_self].
  eapply unsigned_of_signed; [apply uint2int32_spec|apply int2uint32_spec].
Qed.

(** Word-size dependent aliases. *)
Definition wbits (p : platform) : Z := 8 * word_size p.
Lemma wbits_cases p : (p_64bits p = true /\ wbits p = 64) \/ (p_64bits p = false /\ wbits p = 32).
Proof. unfold wbits, word_size. destruct (p_64bits p); auto. Qed.

Lemma truncateWord_spec p v : unsigned_of (wbits p) v (truncateWord p v).
Proof.
  unfold truncateWord. destruct (wbits_cases p) as [[-> ->]|[-> ->]].
  - apply truncateWord64_spec.
  - apply truncateWord32_spec.
Qed.
Lemma ulong2long_spec p v : signed_of (wbits p) v (ulong2long p v).
Proof.
  unfold ulong2long. destruct (wbits_cases p) as [[-> ->]|[-> ->]].
  - apply uint2int64_spec.
  - apply uint2int32_spec.
Qed.
Lemma long2ulong_spec p v : unsigned_of (wbits p) v (long2ulong p v).
Proof.
  unfold long2ulong. destruct (wbits_cases p) as [[-> ->]|[-> ->]].
  - apply int2uint64_spec.
  - apply int2uint32_spec.
Qed.

(** ** Hexadecimal text *)
Lemma digit_char_position d : 0 <= d < 16 -> position (digit_char d) hex_alphabet = Some d.
Proof.
  apply (zrange_Forall (fun d => position (digit_char d) hex_alphabet = Some d) 16).
  repeat constructor.
Qed.

Lemma hex_reads_snoc_read ds v : hex_reads ds v -> read_digits 16 ds 0 = Some v.
Proof.
  assert (P : forall c d, position c hex_alphabet = Some d -> digit_val c = Some d /\ d < 16).
  { intros c d. cbn [position hex_alphabet T list_ascii_of_string].
    repeat match goal with
    | |- context [Ascii.eqb c ?x] => destruct (Ascii.eqb c x) eqn:?E
    end; intros Hd; try easy;
    match goal with E : Ascii.eqb c ?x = true |- _ => apply Ascii.eqb_eq in E; subst c end;
    injection Hd as <-; split; reflexivity. }
  induction 1 as [c d H|ds v c d H IH Hc].
  - apply P in H as [H1 H2]. simpl. rewrite H1. apply Z.ltb_lt in H2. now rewrite H2.
  - rewrite read_digits_app, IH. apply P in Hc as [H1 H2]. cbn [read_digits]. rewrite H1.
    apply Z.ltb_lt in H2. rewrite H2. f_equal. lia.
Qed.

Lemma hex_reads_fun ds v1 v2 : hex_reads ds v1 -> hex_reads ds v2 -> v1 = v2.
Proof. intros H1 H2. apply hex_reads_snoc_read in H1, H2. congruence. Qed.

(** converse: a readable string of alphabet digits is related *)
Lemma hex_reads_of ds v :
  ds <> [] -> Forall (fun c => exists d, 0 <= d < 16 /\ c = digit_char d) ds ->
  read_digits 16 ds 0 = Some v -> hex_reads ds v.
Proof.
  intros Hne HF. revert v. induction ds as [|c ds IH] using rev_ind; [easy|]. clear Hne.
  intros v Hv. apply Forall_app in HF as [HF1 HF2]. inversion HF2 as [|? ? [d [Hd ->]] _]; subst.
  rewrite read_digits_app in Hv.
  destruct (read_digits 16 ds 0) as [w|] eqn:E; [|easy].
  cbn [read_digits] in Hv. rewrite digit_char_val in Hv by lia.
  replace (d <? 16) with true in Hv by (symmetry; apply Z.ltb_lt; lia). inversion Hv; subst.
  destruct ds as [|x ds].
  - simpl in E. inversion E; subst. simpl. constructor. now apply digit_char_position.
  - replace (w * 16 + d) with (16 * w + d) by lia. constructor.
    + apply IH; easy.
    + now apply digit_char_position.
Qed.

Lemma fmt_int0_reads w v : 0 <= v -> hex_reads (fmt_int0 16 w v) v.
Proof.
  intros Hv. unfold fmt_int0. replace (v <? 0) with false by (symmetry; apply Z.ltb_ge; lia).
  apply hex_reads_of.
  - unfold padl. intros H. apply app_eq_nil in H as [_ H]. now apply digits_nonempty in H.
  - unfold padl. apply Forall_app. split.
    + apply Forall_forall. intros x Hx. apply repeat_spec in Hx. subst. exists 0. split; [lia|reflexivity].
    + apply digits_Forall; [lia| |auto]. intros d Hd. now exists d.
  - rewrite read_padl by lia. apply digits_read; lia.
Qed.

Lemma fmt_int0_length w v :
  (1 <= w)%nat -> 0 <= v < 16 ^ Z.of_nat w -> List.length (fmt_int0 16 w v) = w.
Proof.
  intros Hw Hv. unfold fmt_int0. replace (v <? 0) with false by (symmetry; apply Z.ltb_ge; lia).
  rewrite padl_length. pose proof (digits_length 16 v (Z.of_nat w)) as H. unfold zlen in H. lia.
Qed.

Lemma fmt_int0_min_length w v : 0 <= v -> (w <= List.length (fmt_int0 16 w v))%nat.
Proof.
  intros Hv. unfold fmt_int0. replace (v <? 0) with false by (symmetry; apply Z.ltb_ge; lia).
  rewrite padl_length. lia.
Qed.

Lemma hex16_spec v : 0 <= v -> hex_text (formatUintHex16 v) v.
Proof. intros. exists (fmt_int0 16 4 v). split; auto. now apply fmt_int0_reads. Qed.
Lemma hex32_spec v : 0 <= v -> hex_text (formatUintHex32 v) v.
Proof. intros. exists (fmt_int0 16 8 v). split; auto. now apply fmt_int0_reads. Qed.
Lemma hex64_spec v : 0 <= v -> hex_text (formatUintHex64 v) v.
Proof. intros. exists (fmt_int0 16 16 v). split; auto. now apply fmt_int0_reads. Qed.
Lemma hex16_length v : 0 <= v < 2 ^ 16 -> List.length (formatUintHex16 v) = 6%nat.
Proof. intros. unfold formatUintHex16. rewrite app_length, fmt_int0_length; simpl; lia. Qed.
Lemma hex32_length v : 0 <= v < 2 ^ 32 -> List.length (formatUintHex32 v) = 10%nat.
Proof. intros. unfold formatUintHex32. rewrite app_length, fmt_int0_length; simpl; lia. Qed.
Lemma hex64_length v : 0 <= v < 2 ^ 64 -> List.length (formatUintHex64 v) = 18%nat.
Proof. intros. unfold formatUintHex64. rewrite app_length, fmt_int0_length; simpl; lia. Qed.

Lemma wordhex_spec p v : 0 <= v -> hex_text (formatWordHex p v) v.
Proof. unfold formatWordHex. destruct (p_64bits p); [apply hex64_spec|apply hex32_spec]. Qed.
Lemma wordhex_length p v : 0 <= v < 2 ^ wbits p ->
  zlen (formatWordHex p v) = 2 + 2 * word_size p.
Proof.
  unfold formatWordHex, word_size, zlen. destruct (wbits_cases p) as [[-> ->]|[-> ->]]; intros.
  - rewrite hex64_length; lia.
  - rewrite hex32_length; lia.
Qed.

Lemma hex_text_fun s v1 v2 : hex_text s v1 -> hex_text s v2 -> v1 = v2.
Proof.
  intros [d1 [E1 H1]] [d2 [E2 H2]]. subst s. apply app_inv_head in E2. subst.
  eapply hex_reads_fun; eauto.
Qed.

Lemma formatAddress_null p a : 0 <= a -> (formatAddress p a = T "NULL" <-> a = 0).
Proof.
  intros H. unfold formatAddress. destruct (Z.eqb_spec a 0) as [->|Hn]; simpl negb; cbv iota.
  - tauto.
  - split; [|easy]. intros E. destruct (wordhex_spec p a H) as [ds [E2 _]]. rewrite E in E2. easy.
Qed.
Lemma formatAddress_hex p a : 0 < a -> hex_text (formatAddress p a) a.
Proof.
  intros H. unfold formatAddress. destruct (Z.eqb_spec a 0); [lia|]. apply wordhex_spec. lia.
Qed.
Lemma formatAddress_inj p a b : 0 <= a -> 0 <= b -> formatAddress p a = formatAddress p b -> a = b.
Proof.
  intros Ha Hb E. destruct (Z.eq_dec a 0) as [->|Hna].
  - symmetry. apply (formatAddress_null p b Hb). rewrite <- E. now apply (formatAddress_null p 0).
  - destruct (Z.eq_dec b 0) as [->|Hnb].
    + apply (formatAddress_null p a Ha). rewrite E. now apply (formatAddress_null p 0).
    + eapply hex_text_fun; [apply (formatAddress_hex p a); lia|]. rewrite E. apply formatAddress_hex. lia.
Qed.

(** ** Byte order *)
Lemma le_bytes_length n v : List.length (le_bytes n v) = n.
Proof. revert v. induction n; intros; simpl; auto. Qed.
Lemma le_value_bytes n v : 0 <= v < 256 ^ Z.of_nat n -> le_value (le_bytes n v) = v.
Proof.
  revert v. induction n as [|n IH]; intros v Hv.
  - simpl in *. lia.
  - cbn [le_bytes le_value]. rewrite Nat2Z.inj_succ, Z.pow_succ_r in Hv by lia.
    rewrite b2z_z2b, Z.mod_mod by lia. rewrite IH.
    + pose proof (Z.div_mod v 256 ltac:(lia)). lia.
    + split; [apply Z.div_pos; lia|]. apply Z.div_lt_upper_bound; lia.
Qed.
Lemma le_value_range s : 0 <= le_value s < 256 ^ zlen s.
Proof.
  induction s as [|b s IH].
  - unfold zlen; simpl; lia.
  - rewrite zlen_cons, Z.add_1_l, Z.pow_succ_r by apply zlen_nonneg. cbn [le_value].
    pose proof (b2z_range b). lia.
Qed.
Lemma le_bytes_value s : le_bytes (List.length s) (le_value s) = s.
Proof.
  induction s as [|b s IH]; auto. cbn [List.length le_bytes le_value].
  pose proof (b2z_range b).
  replace ((b2z b + 256 * le_value s) mod 256) with (b2z b).
  2:{ rewrite Z.mul_comm, Z.mod_add by lia. symmetry. apply Z.mod_small. lia. }
  replace ((b2z b + 256 * le_value s) / 256) with (le_value s).
  2:{ rewrite Z.mul_comm, Z.div_add by lia. rewrite Z.div_small; lia. }
  now rewrite z2b_b2z, IH.
Qed.

Lemma fold_be bs acc :
  fold_left (fun acc b => acc * 256 + b2z b) bs acc = acc * 256 ^ zlen bs + big_endian_value bs.
Proof.
  unfold big_endian_value. revert acc. induction bs as [|b bs IH]; intros acc.
  - unfold zlen; simpl; lia.
  - cbn [fold_left]. rewrite IH, (IH (0 * 256 + b2z b)).
    rewrite zlen_cons, Z.add_1_l, Z.pow_succ_r by apply zlen_nonneg. ring.
Qed.
Lemma be_rev s : big_endian_value (rev s) = le_value s.
Proof.
  induction s as [|b s IH]; auto. cbn [rev le_value].
  unfold big_endian_value. rewrite fold_left_app. fold (big_endian_value (rev s)). rewrite IH. cbn [fold_left]. lia.
Qed.
Lemma le_rev s : le_value (rev s) = big_endian_value s.
Proof. rewrite <- be_rev. now rewrite rev_involutive. Qed.

Lemma host_value_cases big s :
  host_value big s = if big then le_value (rev s) else le_value s.
Proof. unfold host_value. destruct big; [now rewrite le_rev|apply be_rev]. Qed.

Lemma host_value_range big s : 0 <= host_value big s < 256 ^ zlen s.
Proof.
  rewrite host_value_cases. destruct big.
  - pose proof (le_value_range (rev s)) as H. unfold zlen in *. now rewrite rev_length in H.
  - apply le_value_range.
Qed.

Lemma pack_ok big n v : 0 <= v < 256 ^ Z.of_nat n ->
  pack_uint big n v = Ok (if big then rev (le_bytes n v) else le_bytes n v).
Proof.
  intros H. unfold pack_uint.
  replace (v <? 0) with false by (symmetry; apply Z.ltb_ge; lia).
  replace (256 ^ Z.of_nat n <=? v) with false by (symmetry; apply Z.leb_gt; lia). reflexivity.
Qed.
Lemma pack_err big n v : ~ (0 <= v < 256 ^ Z.of_nat n) -> pack_uint big n v = Err EStructError.
Proof.
  intros H. unfold pack_uint. destruct (v <? 0) eqn:E1; auto. destruct (256 ^ Z.of_nat n <=? v) eqn:E2; auto.
  apply Z.ltb_ge in E1. apply Z.leb_gt in E2. lia.
Qed.
Lemma pack_length big n v s : pack_uint big n v = Ok s -> List.length s = n.
Proof.
  unfold pack_uint. destruct (_ || _); [easy|]. intros H; inversion H; subst.
  destruct big; [rewrite rev_length|]; apply le_bytes_length.
Qed.
Lemma pack_unpack big n v s : pack_uint big n v = Ok s -> unpack_uint big n s = Ok v.
Proof.
  intros H. pose proof (pack_length _ _ _ _ H) as Hl.
  assert (Hr : 0 <= v < 256 ^ Z.of_nat n).
  { unfold pack_uint in H. destruct (v <? 0) eqn:E1; [easy|]. destruct (256 ^ Z.of_nat n <=? v) eqn:E2; [easy|].
    apply Z.ltb_ge in E1. apply Z.leb_gt in E2. lia. }
  rewrite pack_ok in H by auto. injection H as <-. unfold unpack_uint. rewrite Hl, Nat.eqb_refl.
  destruct big; [rewrite rev_involutive|]; now rewrite le_value_bytes.
Qed.
Lemma unpack_pack big s : forall v, unpack_uint big (List.length s) s = Ok v ->
  pack_uint big (List.length s) v = Ok s.
Proof.
  intros v H. unfold unpack_uint in H. rewrite Nat.eqb_refl in H. inversion H; subst. clear H.
  destruct big.
  - pose proof (le_value_range (rev s)) as Hr. unfold zlen in Hr. rewrite rev_length in Hr.
    rewrite pack_ok by auto. rewrite <- (rev_length s). rewrite le_bytes_value, rev_involutive. reflexivity.
  - pose proof (le_value_range s) as Hr. rewrite pack_ok by auto. now rewrite le_bytes_value.
Qed.
Lemma unpack_host big s : unpack_uint big (List.length s) s = Ok (host_value big s).
Proof. unfold unpack_uint. rewrite Nat.eqb_refl, host_value_cases. reflexivity. Qed.

Lemma ntoh_swap n s : List.length s = n ->
  (do x <- pack_uint true n (host_value false s); unpack_uint false n x) = Ok (big_endian_value s).
Proof.
  intros <-. pose proof (host_value_range false s) as Hr. unfold zlen in Hr.
  rewrite pack_ok by auto. cbn [bind]. rewrite host_value_cases, le_bytes_value.
  unfold unpack_uint. rewrite rev_length, Nat.eqb_refl, le_rev. reflexivity.
Qed.

Lemma ntoh_ushort_bytes b0 b1 :
  ntoh_ushort (host_value false [b0; b1]) = Ok (big_endian_value [b0; b1]).
Proof. exact (ntoh_swap 2 [b0; b1] eq_refl). Qed.
Lemma ntoh_uint_bytes b0 b1 b2 b3 :
  ntoh_uint (host_value false [b0; b1; b2; b3]) = Ok (big_endian_value [b0; b1; b2; b3]).
Proof. exact (ntoh_swap 4 [b0; b1; b2; b3] eq_refl). Qed.

Lemma ntoh_invol n v u :
  (do x <- pack_uint true n v; unpack_uint false n x) = Ok u ->
  (do x <- pack_uint true n u; unpack_uint false n x) = Ok v.
Proof.
  destruct (pack_uint true n v) as [s|] eqn:E; [|easy]. cbn [bind]. intros H.
  pose proof (pack_length _ _ _ _ E) as Hl. subst n.
  unfold unpack_uint in H. rewrite Nat.eqb_refl in H. inversion H; subst. clear H.
  assert (v = host_value true s) as ->.
  { apply pack_unpack in E. rewrite unpack_host in E. now inversion E. }
  rewrite <- (rev_length s).
  replace (le_value s) with (host_value false s) by now rewrite host_value_cases.
  rewrite rev_length. rewrite (ntoh_swap (List.length s) s eq_refl).
  unfold host_value. reflexivity.
Qed.

Lemma word_bytes_pos p : 256 ^ Z.of_nat (word_bytes p) = 2 ^ wbits p.
Proof. unfold word_bytes, wbits, word_size. destruct (p_64bits p); reflexivity. Qed.

Lemma word_roundtrip p w s :
  word2bytes p w = Ok s -> zlen s = word_size p /\ bytes2word p s = Ok w.
Proof.
  unfold word2bytes, bytes2word. intros H. split; [|eapply pack_unpack; eauto].
  apply pack_length in H. unfold zlen. rewrite H. unfold word_bytes, word_size. destruct (p_64bits p); reflexivity.
Qed.
Lemma zlen_word_bytes {A} p (s : list A) : zlen s = word_size p -> List.length s = word_bytes p.
Proof. unfold zlen, word_bytes. intros <-. now rewrite Nat2Z.id. Qed.
Lemma bytes_roundtrip p s :
  zlen s = word_size p ->
  exists w, bytes2word p s = Ok w /\ w = host_value (p_bigendian p) s /\
            0 <= w < 2 ^ (8 * word_size p) /\ word2bytes p w = Ok s.
Proof.
  intros H. pose proof (zlen_word_bytes p s H) as Hl. exists (host_value (p_bigendian p) s).
  unfold bytes2word, word2bytes. rewrite <- Hl, unpack_host. repeat split; auto.
  - apply host_value_range.
  - pose proof (host_value_range (p_bigendian p) s) as Hr. unfold zlen in Hr. rewrite Hl, word_bytes_pos in Hr. apply Hr.
  - apply unpack_pack, unpack_host.
Qed.
Lemma word_domain p w : (0 <= w < 2 ^ (8 * word_size p) <-> exists s, word2bytes p w = Ok s).
Proof.
  fold (wbits p). rewrite <- word_bytes_pos. unfold word2bytes. split.
  - intros H. eexists. now apply pack_ok.
  - intros [s H]. destruct (Z_le_dec 0 w), (Z_lt_dec w (256 ^ Z.of_nat (word_bytes p))); try lia;
      rewrite pack_err in H by lia; easy.
Qed.
Lemma bytes_domain p (s : list byte) : (zlen s = word_size p <-> exists w, bytes2word p s = Ok w).
Proof.
  split.
  - intros H. apply bytes_roundtrip in H as [w [H _]]. eauto.
  - intros [w H]. unfold bytes2word, unpack_uint in H.
    destruct (Nat.eqb_spec (List.length s) (word_bytes p)) as [E|]; [|easy].
    unfold zlen. rewrite E. unfold word_bytes, word_size. destruct (p_64bits p); reflexivity.
Qed.
