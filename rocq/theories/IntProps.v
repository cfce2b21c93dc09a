(** * IntProps: C01-C04, integer and byte-order helpers (ptrace/ctypes_tools.py). *)
From Coq Require Import ZArith List Ascii String Bool.
From Verif Require Import PyBase Platform IntModel IntSpec IntProofs.
Import ListNotations.
Open Scope Z_scope.

(** ** C01 *)

(** The representations of IntSpec are unique, so the theorems below determine
    the results completely. *)
Theorem c01_unsigned_unique : forall n v u1 u2,
  0 <= n -> unsigned_of n v u1 -> unsigned_of n v u2 -> u1 = u2.
Proof. exact unsigned_unique. Qed.
Print Assumptions c01_unsigned_unique.

Theorem c01_signed_unique : forall n v s1 s2,
  1 <= n -> signed_of n v s1 -> signed_of n v s2 -> s1 = s2.
Proof. exact signed_unique. Qed.
Print Assumptions c01_signed_unique.

Theorem c01_to_unsigned : forall v : Z,
  unsigned_of 64 v (int2uint64 v) /\ unsigned_of 32 v (int2uint32 v) /\
  unsigned_of 64 v (truncateWord64 v) /\ unsigned_of 32 v (truncateWord32 v).
Proof.
  exact (fun v => conj (int2uint64_spec v) (conj (int2uint32_spec v)
    (conj (truncateWord64_spec v) (truncateWord32_spec v)))).
Qed.
Print Assumptions c01_to_unsigned.
Example c01_to_unsigned_ex : int2uint64 (-2) = 18446744073709551614 /\ int2uint32 (2 ^ 32 + 1) = 1.
Proof. split; reflexivity. Qed.

Theorem c01_to_signed : forall v : Z,
  signed_of 64 v (uint2int64 v) /\ signed_of 32 v (uint2int32 v).
Proof. exact (fun v => conj (uint2int64_spec v) (uint2int32_spec v)). Qed.
Print Assumptions c01_to_signed.
Example c01_to_signed_ex : uint2int32 4294967294 = -2 /\ uint2int64 (2 ^ 64 + 1) = 1.
Proof. split; reflexivity. Qed.

(** The CPU-word aliases follow the platform's word size. *)
Theorem c01_word_aliases : forall p v,
  unsigned_of (8 * word_size p) v (truncateWord p v) /\
  unsigned_of (8 * word_size p) v (long2ulong p v) /\
  signed_of (8 * word_size p) v (ulong2long p v).
Proof.
  exact (fun p v => conj (truncateWord_spec p v) (conj (long2ulong_spec p v) (ulong2long_spec p v))).
Qed.
Print Assumptions c01_word_aliases.
Example c01_word_aliases_ex :
  ulong2long linux_i386 0xffffffff = -1 /\ ulong2long linux_x86_64 0xffffffff = 0xffffffff.
Proof. split; reflexivity. Qed.

Theorem c01_roundtrip_signed : forall v,
  (- 2 ^ 63 <= v < 2 ^ 63 -> uint2int64 (int2uint64 v) = v) /\
  (- 2 ^ 31 <= v < 2 ^ 31 -> uint2int32 (int2uint32 v) = v).
Proof. exact (fun v => conj (roundtrip_s64 v) (roundtrip_s32 v)). Qed.
Print Assumptions c01_roundtrip_signed.
Example c01_roundtrip_signed_ex : - 2 ^ 31 <= -123456 < 2 ^ 31 /\ uint2int32 (int2uint32 (-123456)) = -123456.
Proof. repeat split; discriminate. Qed.

Theorem c01_roundtrip_unsigned : forall v,
  (0 <= v < 2 ^ 64 -> int2uint64 (uint2int64 v) = v) /\
  (0 <= v < 2 ^ 32 -> int2uint32 (uint2int32 v) = v).
Proof. exact (fun v => conj (roundtrip_u64 v) (roundtrip_u32 v)). Qed.
Print Assumptions c01_roundtrip_unsigned.
Example c01_roundtrip_unsigned_ex : int2uint64 (uint2int64 0xfffffffffffffff0) = 0xfffffffffffffff0.
Proof. reflexivity. Qed.

(** ** C02 *)

Theorem c02_hex_reads_back : forall v, 0 <= v ->
  hex_text (formatUintHex16 v) v /\ hex_text (formatUintHex32 v) v /\ hex_text (formatUintHex64 v) v.
Proof. exact (fun v H => conj (hex16_spec v H) (conj (hex32_spec v H) (hex64_spec v H))). Qed.
Print Assumptions c02_hex_reads_back.
Example c02_hex_reads_back_ex : formatUintHex32 0xbeef = T "0x0000beef".
Proof. reflexivity. Qed.

(** a hexadecimal text denotes one value only *)
Theorem c02_hex_text_functional : forall s v1 v2, hex_text s v1 -> hex_text s v2 -> v1 = v2.
Proof. exact hex_text_fun. Qed.
Print Assumptions c02_hex_text_functional.

Theorem c02_hex_width : forall v,
  (0 <= v < 2 ^ 16 -> List.length (formatUintHex16 v) = 6%nat) /\
  (0 <= v < 2 ^ 32 -> List.length (formatUintHex32 v) = 10%nat) /\
  (0 <= v < 2 ^ 64 -> List.length (formatUintHex64 v) = 18%nat).
Proof. exact (fun v => conj (hex16_length v) (conj (hex32_length v) (hex64_length v))). Qed.
Print Assumptions c02_hex_width.

Theorem c02_word_hex : forall p v,
  (0 <= v -> hex_text (formatWordHex p v) v) /\
  (0 <= v < 2 ^ (8 * word_size p) -> zlen (formatWordHex p v) = 2 + 2 * word_size p).
Proof. exact (fun p v => conj (wordhex_spec p v) (wordhex_length p v)). Qed.
Print Assumptions c02_word_hex.

Theorem c02_address_null : forall p a, 0 <= a -> (formatAddress p a = T "NULL" <-> a = 0).
Proof. exact formatAddress_null. Qed.
Print Assumptions c02_address_null.

Theorem c02_address_hex : forall p a, 0 < a -> hex_text (formatAddress p a) a.
Proof. exact formatAddress_hex. Qed.
Print Assumptions c02_address_hex.
Example c02_address_ex : formatAddress linux_i386 0x804a000 = T "0x0804a000" /\ formatAddress linux_i386 0 = T "NULL".
Proof. split; reflexivity. Qed.

Theorem c02_address_injective : forall p a b,
  0 <= a -> 0 <= b -> formatAddress p a = formatAddress p b -> a = b.
Proof. exact formatAddress_inj. Qed.
Print Assumptions c02_address_injective.

Theorem c02_address_range : forall p a b,
  exists s1 s2, formatAddressRange p a b = s1 ++ T "-" ++ s2 /\
    (0 <= a -> hex_text s1 a) /\ (0 <= b -> hex_text s2 b).
Proof.
  exact (fun p a b => ex_intro _ (formatWordHex p a) (ex_intro _ (formatWordHex p b)
    (conj eq_refl (conj (wordhex_spec p a) (wordhex_spec p b))))).
Qed.
Print Assumptions c02_address_range.
Example c02_address_range_ex :
  formatAddressRange linux_i386 0x80004000 0x8000ffff = T "0x80004000-0x8000ffff".
Proof. reflexivity. Qed.

(** ** C03 *)

(** On a little-endian host the conversion of a field gives the network-order
    value of the bytes in memory. *)
Theorem c03_ntoh_little_endian_partial : forall b0 b1 b2 b3,
  ntoh_ushort (host_value false [b0; b1]) = Ok (big_endian_value [b0; b1]) /\
  ntoh_uint (host_value false [b0; b1; b2; b3]) = Ok (big_endian_value [b0; b1; b2; b3]).
Proof. exact (fun b0 b1 b2 b3 => conj (ntoh_ushort_bytes b0 b1) (ntoh_uint_bytes b0 b1 b2 b3)). Qed.
Print Assumptions c03_ntoh_little_endian_partial.
Example c03_ntoh_ex : (* port 80 in memory: 00 50 *)
  host_value false [z2b 0; z2b 80] = 20480 /\ ntoh_ushort 20480 = Ok 80.
Proof. split; reflexivity. Qed.

(** Finding: on a big-endian host the bytes are swapped although they already are
    in the right order. *)
Theorem c03_ntoh_big_endian_refuted :
  exists b0 b1, ntoh_ushort (host_value true [b0; b1]) <> Ok (big_endian_value [b0; b1]).
Proof. exists (z2b 0), (z2b 80). vm_compute. discriminate. Qed.
Print Assumptions c03_ntoh_big_endian_refuted.

Theorem c03_ntoh_involutive : forall v u,
  (ntoh_ushort v = Ok u -> ntoh_ushort u = Ok v) /\ (ntoh_uint v = Ok u -> ntoh_uint u = Ok v).
Proof. exact (fun v u => conj (ntoh_invol 2 v u) (ntoh_invol 4 v u)). Qed.
Print Assumptions c03_ntoh_involutive.

Theorem c03_ntoh_out_of_range : forall v,
  (~ 0 <= v < 2 ^ 16 -> ntoh_ushort v = Err EStructError) /\
  (~ 0 <= v < 2 ^ 32 -> ntoh_uint v = Err EStructError).
Proof.
  split; intros H; [unfold ntoh_ushort|unfold ntoh_uint]; now rewrite pack_err.
Qed.
Print Assumptions c03_ntoh_out_of_range.

(** ** C04 *)

Theorem c04_word_roundtrip : forall p w s,
  word2bytes p w = Ok s -> zlen s = word_size p /\ bytes2word p s = Ok w.
Proof. exact word_roundtrip. Qed.
Print Assumptions c04_word_roundtrip.

Theorem c04_bytes_roundtrip : forall p s,
  zlen s = word_size p ->
  exists w, bytes2word p s = Ok w /\ w = host_value (p_bigendian p) s /\
            0 <= w < 2 ^ (8 * word_size p) /\ word2bytes p w = Ok s.
Proof. exact bytes_roundtrip. Qed.
Print Assumptions c04_bytes_roundtrip.

Theorem c04_word_domain : forall p w,
  (0 <= w < 2 ^ (8 * word_size p) <-> exists s, word2bytes p w = Ok s).
Proof. exact word_domain. Qed.
Print Assumptions c04_word_domain.

Theorem c04_bytes_domain : forall p s,
  (zlen s = word_size p <-> exists w, bytes2word p s = Ok w).
Proof. exact bytes_domain. Qed.
Print Assumptions c04_bytes_domain.
Example c04_ex :
  word2bytes linux_i386 0x11223344 = Ok (map z2b [0x44; 0x33; 0x22; 0x11]) /\
  word2bytes linux_ppc32 0x11223344 = Ok (map z2b [0x11; 0x22; 0x33; 0x44]).
Proof. split; reflexivity. Qed.
