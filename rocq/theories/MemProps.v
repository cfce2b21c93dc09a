(** * MemProps: C10-C15, memory access (ptrace/debugger/process.py). *)
From Coq Require Import ZArith List Ascii String Bool Lia.
From Verif Require Import PyBase Platform CallModel MemModel MemSpec MemProofs MemProofs2 MemProofs3 MemExamples MemFinal.
Import ListNotations.
Open Scope Z_scope.

(** ** C10 *)

(** The word-wise read gives the bytes in memory if all words touching the range are mapped, and raises
    PtraceError otherwise. *)
Theorem c10_read_exact : forall E a n s,
  good_pid E -> 0 < n -> in_space E a n -> words_mapped (e_p E) (s_mem s) a n ->
  exists d, readBytes_ptrace E a n s = (s, Ok d) /\ stored (s_mem s) a d /\ zlen d = n.
Proof. exact ptrace_read_ok. Qed.
Print Assumptions c10_read_exact.

Theorem c10_read_fails : forall E a n s,
  good_pid E -> 0 < n -> in_space E a n -> ~ words_mapped (e_p E) (s_mem s) a n ->
  exists e, readBytes_ptrace E a n s = (s, Err (EPtraceError (Some e))).
Proof. exact ptrace_read_fails. Qed.
Print Assumptions c10_read_fails.

(** [stored] and the length determine the bytes. *)
Theorem c10_bytes_unique : forall k a d1 d2, stored k a d1 -> stored k a d2 -> zlen d1 = zlen d2 -> d1 = d2.
Proof. exact stored_unique. Qed.
Print Assumptions c10_bytes_unique.

(** Reading never changes the process (any implementation, any arguments, any outcome). *)
Theorem c10_read_only : forall E a n s,
  s_mem (fst (readBytes E a n s)) = s_mem s /\ fst (readBytes_ptrace E a n s) = s.
Proof. exact (fun E a n s => conj (readBytes_mem E a n s) (readBytes_ptrace_state E a n s)). Qed.
Print Assumptions c10_read_only.

Example c10_ex :
  let E := prefix_env Ctypes linux_x86_64 in
  good_pid E /\ in_space E 4099 11 /\ words_mapped (e_p E) page_mem 4099 11 /\
  snd (readBytes_ptrace E 4099 11 (fresh page_mem)) = Ok (map z2b [3;4;5;6;7;8;9;10;11;12;13]) /\
  snd (readBytes_ptrace (prefix_env Cptrace linux_ppc32) 4099 3 (fresh page_mem)) = Ok (map z2b [3;4;5]).
Proof.
  cbv zeta. split; [split; easy|]. split; [repeat split; discriminate|].
  split; [apply page_mapped; lia|]. split; vm_compute; reflexivity.
Qed.
Example c10_fails_ex : ~ words_mapped linux_x86_64 page_mem 8190 3 /\
  snd (readBytes_ptrace (prefix_env Ctypes linux_x86_64) 8190 3 (fresh page_mem)) = Err (EPtraceError (Some EIO)).
Proof.
  split; [|vm_compute; reflexivity]. intros H. apply (H 8192 8192 ltac:(lia)) with (x := 8192); try reflexivity.
  - split; [exists 1024; reflexivity|cbn; lia].
  - cbn; lia.
Qed.

(** ** C11 *)

(** Linux: whatever path is used, a readable range gives the bytes in memory. *)
Theorem c11_same_bytes : forall E a n s,
  p_os (e_p E) = Linux -> good_pid E -> faithful E -> never_fails E -> open_ok E ->
  0 < n -> in_space E a n -> words_mapped (e_p E) (s_mem s) a n -> file_usable s (a + n) ->
  exists s' d, readBytes E a n s = (s', Ok d) /\ stored (s_mem s) a d /\ zlen d = n.
Proof. exact read_any_path. Qed.
Print Assumptions c11_same_bytes.
Example c11_same_bytes_ex :
  let E1 := prefix_env Ctypes linux_x86_64 in let E2 := denied_env Ctypes linux_x86_64 in
  faithful E1 /\ never_fails E1 /\ faithful E2 /\ file_usable (fresh page_mem) (4099 + 11) /\
  snd (readBytes E1 4099 11 (fresh page_mem)) = snd (readBytes E2 4099 11 (fresh page_mem)) /\
  s_fallback (fst (readBytes E1 4099 11 (fresh page_mem))) = false /\
  s_fallback (fst (readBytes E2 4099 11 (fresh page_mem))) = true.
Proof.
  cbv zeta. split; [apply prefix_env_faithful|]. split; [apply prefix_env_never_fails|].
  split; [apply denied_env_faithful|]. split; [right; split; discriminate|].
  repeat split; vm_compute; reflexivity.
Qed.

(** The bytes returned are always those in memory, on every path, even for partly mapped ranges. *)
Theorem c11_only_true_bytes : forall E a n s s' d,
  p_os (e_p E) = Linux -> good_pid E -> faithful E -> 0 < n -> in_space E a n ->
  readBytes E a n s = (s', Ok d) -> stored (s_mem s) a d /\ zlen d <= n.
Proof. exact read_only_true. Qed.
Print Assumptions c11_only_true_bytes.

Theorem c11_switch : forall E a n s,
  p_os (e_p E) = Linux -> s_fallback s = false -> s_fallback (fst (readBytes E a n s)) = true ->
  (s_file s = FileNone /\ exists e, e_open E = Err (EOSError e)) \/
  (n <> 0 /\ e_read E (s_mem s) a n = Ok []).
Proof. exact (fun E a n s H => fallback_switch E H a n s). Qed.
Print Assumptions c11_switch.

Theorem c11_permanent : forall E a n s,
  p_os (e_p E) = Linux -> s_fallback s = true ->
  readBytes E a n s = readBytes_ptrace E a n s /\ s_fallback (fst (readBytes E a n s)) = true.
Proof. exact (fun E a n s H => fallback_permanent E H a n s). Qed.
Print Assumptions c11_permanent.

(** BSD: exact when the range is mapped. *)
Theorem c11_bsd : forall E a n s,
  p_os (e_p E) <> Linux -> 0 <= n -> 0 <= a < 2 ^ (8 * word_size (e_p E)) -> mapped (s_mem s) a n ->
  exists d, readBytes E a n s = (s, Ok d) /\ stored (s_mem s) a d /\ zlen d = n.
Proof. exact readBytes_bsd. Qed.
Print Assumptions c11_bsd.
Example c11_bsd_ex : snd (readBytes (prefix_env Ctypes freebsd_x86_64) 4098 3 (fresh page_mem)) = Ok (map z2b [2;3;4]).
Proof. vm_compute; reflexivity. Qed.

(** Fewer bytes than requested, without exception, when the end of the range is not mapped. *)
Theorem c11_short_read_refuted : exists E a n s d,
  p_os (e_p E) = Linux /\ good_pid E /\ faithful E /\ never_fails E /\ in_space E a n /\
  snd (readBytes E a n s) = Ok d /\ zlen d < n.
Proof. exact short_read. Qed.
Print Assumptions c11_short_read_refuted.

(** Addresses from 2^63 on (the [vsyscall] page of x86_64): OverflowError through /proc/pid/mem, although
    the word-wise read works. *)
Theorem c11_high_address_refuted : exists E a n s d,
  p_os (e_p E) = Linux /\ good_pid E /\ faithful E /\ in_space E a n /\ words_mapped (e_p E) (s_mem s) a n /\
  snd (readBytes E a n s) = Err EOverflowError /\ snd (readBytes_ptrace E a n s) = Ok d.
Proof. exact high_address. Qed.
Print Assumptions c11_high_address_refuted.

(** BSD: bytes that could not be read come back as zeros. *)
Theorem c11_bsd_padding_refuted : exists E a n s d,
  p_os (e_p E) = FreeBSD /\ snd (readBytes E a n s) = Ok d /\ zlen d = n /\ ~ stored (s_mem s) a d.
Proof. exact bsd_padding. Qed.
Print Assumptions c11_bsd_padding_refuted.

(** BSD, any range: an error if the first byte is not mapped, else the mapped bytes followed by zeros. *)
Theorem c11_bsd_any : forall E a n s, p_os (e_p E) <> Linux -> 0 <= n -> 0 <= a < 2 ^ (8 * word_size (e_p E)) ->
  (0 < n /\ k_byte (s_mem s) a = None /\ readBytes E a n s = (s, Err (EPtraceError (Some 5)))) \/
  ((n = 0 \/ k_byte (s_mem s) a <> None) /\ exists d zeros, readBytes E a n s = (s, Ok (d ++ repeat (z2b 0) zeros)) /\ stored (s_mem s) a d /\
     zlen d + Z.of_nat zeros = n /\ (zeros <> O -> k_byte (s_mem s) (a + zlen d) = None)).
Proof. exact read_bsd_any. Qed.
Print Assumptions c11_bsd_any.
Example c11_bsd_any_ex : snd (readBytes (prefix_env Ctypes freebsd_x86_64) 1 3 (fresh page_mem)) = Err (EPtraceError (Some 5)) /\
  snd (readBytes (prefix_env Ctypes freebsd_x86_64) 8190 4 (fresh page_mem)) = Ok (map z2b [254; 255; 0; 0]).
Proof. split; vm_compute; reflexivity. Qed.

(** ** C12 *)

(** A successful writeBytes has written the data and changed nothing else. *)
Theorem c12_write_exact : forall E a d s s',
  p_os (e_p E) = Linux -> good_pid E -> faithful E -> in_space E a (zlen d) ->
  writeBytes E a d s = (s', Ok tt) -> written (s_mem s) (s_mem s') a d.
Proof. exact write_exact. Qed.
Print Assumptions c12_write_exact.

(** ... and it does succeed when the words touched can be read and written (ctypes backend). *)
Theorem c12_write_succeeds : forall E a d s s' r,
  p_os (e_p E) = Linux -> good_pid E -> faithful E -> never_fails E -> open_ok E -> e_be E = Ctypes ->
  in_space E a (zlen d) -> 0 < zlen d ->
  words_mapped (e_p E) (s_mem s) a (zlen d) -> words_pokable (e_p E) (s_mem s) a (zlen d) ->
  file_usable s (a + zlen d + word_size (e_p E)) ->
  writeBytes E a d s = (s', r) -> r = Ok tt.
Proof. exact write_succeeds. Qed.
Print Assumptions c12_write_succeeds.

Theorem c12_write_then_read : forall E a d s s',
  p_os (e_p E) = Linux -> good_pid E -> faithful E -> never_fails E -> open_ok E ->
  in_space E a (zlen d) -> 0 < zlen d -> words_mapped (e_p E) (s_mem s) a (zlen d) ->
  writeBytes E a d s = (s', Ok tt) -> file_usable s' (a + zlen d) ->
  exists s'', readBytes E a (zlen d) s' = (s'', Ok d).
Proof. exact write_read. Qed.
Print Assumptions c12_write_then_read.
Example c12_ex :
  let E := prefix_env Ctypes linux_ppc64 in
  let s1 := fst (writeBytes E 4099 (T "hello world!") (fresh page_mem)) in
  words_mapped (e_p E) page_mem 4099 12 /\ words_pokable (e_p E) page_mem 4099 12 /\
  file_usable (fresh page_mem) (4099 + 12 + 8) /\
  snd (readBytes E 4097 16 s1) = Ok (map z2b [1; 2] ++ T "hello world!" ++ map z2b [15; 16]).
Proof.
  cbv zeta. split; [apply page_mapped; lia|]. split; [apply page_pokable|].
  split; [right; split; discriminate|]. vm_compute. reflexivity.
Qed.

(** What [written] means: the data is there, and every other byte is unchanged. *)
Theorem c12_written_meaning : forall k k' a d, written k k' a d ->
  stored k' a d /\ forall x, x < a \/ a + zlen d <= x -> k_byte k' x = k_byte k x.
Proof. exact (fun k k' a d H => conj (written_stored k k' a d H) (fun x Hx => written_outside k k' a d x H Hx)). Qed.
Print Assumptions c12_written_meaning.

(** BSD *)
Theorem c12_bsd : forall E a d s s' r,
  p_os (e_p E) <> Linux -> 0 <= a < 2 ^ (8 * word_size (e_p E)) ->
  (forall x, a <= x < a + zlen d -> k_byte (s_mem s) x <> None /\ k_pokable (s_mem s) x = true) ->
  writeBytes E a d s = (s', r) -> r = Ok tt /\ written (s_mem s) (s_mem s') a d.
Proof. exact write_bsd. Qed.
Print Assumptions c12_bsd.

(** With the C extension, 8 bytes whose last is 128 or more cannot be written on a 64-bit little-endian
    machine: the word does not fit the signed 64-bit argument. *)
Theorem c12_cptrace_refuted : exists E a d s,
  e_be E = Cptrace /\ p_os (e_p E) = Linux /\ good_pid E /\ faithful E /\ never_fails E /\ in_space E a (zlen d) /\
  words_mapped (e_p E) (s_mem s) a (zlen d) /\ words_pokable (e_p E) (s_mem s) a (zlen d) /\
  snd (writeBytes E a d s) = Err EOverflowError.
Proof. exact cptrace_write. Qed.
Print Assumptions c12_cptrace_refuted.

(** BSD: a write that is cut short by the kernel is reported as a success. *)
Theorem c12_bsd_short_refuted : exists E a d s,
  p_os (e_p E) = FreeBSD /\ snd (writeBytes E a d s) = Ok tt /\
  ~ stored (s_mem (fst (writeBytes E a d s))) a d.
Proof. exact bsd_short_write. Qed.
Print Assumptions c12_bsd_short_refuted.

(** BSD, any range: the bytes up to the first that cannot be written; an error only if this is the first *)
Theorem c12_bsd_any : forall E a d s, p_os (e_p E) <> Linux -> 0 <= a < 2 ^ (8 * word_size (e_p E)) ->
  exists m s' r, writeBytes E a d s = (s', r) /\ (m <= List.length d)%nat /\ written (s_mem s) (s_mem s') a (firstn m d) /\
    ((m < List.length d)%nat -> k_byte (s_mem s) (a + Z.of_nat m) = None \/ k_pokable (s_mem s) (a + Z.of_nat m) = false) /\
    r = (if (0 <? Z.of_nat m) || (zlen d =? 0) then Ok tt else Err (EPtraceError (Some 5))).
Proof. exact write_bsd_any. Qed.
Print Assumptions c12_bsd_any.
Example c12_bsd_any_ex : snd (writeBytes (prefix_env Ctypes freebsd_x86_64) 1 [z2b 7] (fresh page_mem)) = Err (EPtraceError (Some 5)).
Proof. vm_compute; reflexivity. Qed.

(** ** C13 *)

(** Whatever the outcome (unmapped or read-only words, failed reads, either backend), the memory is the old one with a
    prefix of the data written. *)
Theorem c13_prefix : forall E a d s s' r,
  p_os (e_p E) = Linux -> good_pid E -> faithful E -> in_space E a (zlen d) ->
  writeBytes E a d s = (s', r) ->
  exists m, (m <= List.length d)%nat /\ written (s_mem s) (s_mem s') a (firstn m d) /\
            (r = Ok tt -> m = List.length d).
Proof. exact write_prefix. Qed.
Print Assumptions c13_prefix.
Theorem c13_prefix_bsd : forall E a d s s' r,
  p_os (e_p E) <> Linux -> 0 <= a < 2 ^ (8 * word_size (e_p E)) ->
  writeBytes E a d s = (s', r) ->
  exists m, (m <= List.length d)%nat /\ written (s_mem s) (s_mem s') a (firstn m d).
Proof. exact write_prefix_bsd. Qed.
Print Assumptions c13_prefix_bsd.
(** a write running off the end of the page: fails after the first five bytes *)
Example c13_ex :
  let E := prefix_env Ctypes linux_x86_64 in
  let r := writeBytes E 8187 (T "hello world!") (fresh page_mem) in
  in_space E 8187 12 /\ snd r = Err (EPtraceError (Some EIO)) /\
  k_bytes (s_mem (fst r)) 8185 7 = Some (map z2b [8185; 8186] ++ T "hello").
Proof. cbv zeta. split; [repeat split; discriminate|]. split; vm_compute; reflexivity. Qed.

(** ** C14 *)

(** [d] is what memory holds at [a], up to a multiple of the chunk size [c]; it contains a NUL or is at
    least as long as the limit.  The result is the bytes before the first NUL, cut to the limit, and
    the flag is false exactly when the chunk holding the NUL ends before the limit. *)
Theorem c14_cstring : forall E a max c q d s,
  p_os (e_p E) = Linux -> good_pid E -> faithful E -> never_fails E -> open_ok E ->
  0 < c -> 0 <= max -> (0 < q)%nat -> zlen d = c * Z.of_nat q ->
  stored (s_mem s) a d -> words_mapped (e_p E) (s_mem s) a (zlen d) ->
  in_space E a (zlen d) -> file_usable s (a + zlen d) ->
  (In (z2b 0) d \/ max <= zlen d) ->
  exists s' truncated,
    readCString E a max c s = (s', Ok (firstn (Z.to_nat max) (upto_nul d), truncated)) /\
    (truncated = false <-> exists i, first_nul d i /\ c * (Z.of_nat i / c + 1) < max).
Proof. exact cstring_ok. Qed.
Print Assumptions c14_cstring.
Example c14_cstring_ex :
  let E := prefix_env Ctypes linux_x86_64 in
  snd (readCString E 4096 600 256 (fresh (string_mem 4096 4099))) = Ok (T "aaa", false) /\
  snd (readCString E 4096 5 256 (fresh (string_mem 4096 5000))) = Ok (T "aaaaa", true).
Proof. cbv zeta. split; vm_compute; reflexivity. Qed.

(** If the flag is false, nothing was cut. *)
Theorem c14_not_truncated : forall E a max c q d s s' t,
  p_os (e_p E) = Linux -> good_pid E -> faithful E -> never_fails E -> open_ok E ->
  0 < c -> 0 <= max -> (0 < q)%nat -> zlen d = c * Z.of_nat q ->
  stored (s_mem s) a d -> words_mapped (e_p E) (s_mem s) a (zlen d) ->
  in_space E a (zlen d) -> file_usable s (a + zlen d) ->
  (In (z2b 0) d \/ max <= zlen d) ->
  readCString E a max c s = (s', Ok (t, false)) -> In (z2b 0) d /\ t = upto_nul d.
Proof. exact cstring_not_truncated. Qed.
Print Assumptions c14_not_truncated.

(** The flag is also set for strings that were not cut. *)
Theorem c14_truncated_flag_refuted : exists E a max s,
  p_os (e_p E) = Linux /\ good_pid E /\ faithful E /\ never_fails E /\
  k_bytes (s_mem s) a 4 = Some (T "aaa" ++ [z2b 0]) /\ max = 256 /\
  snd (readCString E a max 256 s) = Ok (T "aaa", true).
Proof. exact truncated_flag. Qed.
Print Assumptions c14_truncated_flag_refuted.

(** With the fallback in use, a string near the end of a mapping cannot be read although all its bytes are mapped. *)
Theorem c14_end_of_mapping_refuted : exists E a max s,
  p_os (e_p E) = Linux /\ good_pid E /\ faithful E /\
  k_bytes (s_mem s) a 4 = Some (T "aaa" ++ [z2b 0]) /\
  snd (readCString E a max 256 s) = Err (EPtraceError (Some EIO)).
Proof. exact end_of_mapping. Qed.
Print Assumptions c14_end_of_mapping_refuted.

(** ** C15 *)
Theorem c15_struct : forall E a n s,
  p_os (e_p E) = Linux -> good_pid E -> faithful E -> never_fails E -> open_ok E ->
  0 < n -> in_space E a n -> words_mapped (e_p E) (s_mem s) a n -> file_usable s (a + n) ->
  exists s' d, readStruct E a n s = (s', Ok d) /\ stored (s_mem s) a d /\ zlen d = n.
Proof. exact struct_ok. Qed.
Print Assumptions c15_struct.
Theorem c15_array : forall E a size count s,
  p_os (e_p E) = Linux -> good_pid E -> faithful E -> never_fails E -> open_ok E ->
  0 < size -> 0 < count -> in_space E a (size * count) ->
  words_mapped (e_p E) (s_mem s) a (size * count) -> file_usable s (a + size * count) ->
  exists s' els, readArray E a size count s = (s', Ok els) /\ zlen els = count /\
    forall i e, nth_error els i = Some e -> stored (s_mem s) (a + Z.of_nat i * size) e /\ zlen e = size.
Proof. exact array_ok. Qed.
Print Assumptions c15_array.
Example c15_array_ex :
  snd (readArray (prefix_env Ctypes linux_x86_64) 4097 2 3 (fresh page_mem)) =
  Ok [map z2b [1; 2]; map z2b [3; 4]; map z2b [5; 6]].
Proof. vm_compute; reflexivity. Qed.
(** A structure running past the end of the mapping is read beyond the end of the buffer. *)
Theorem c15_short_struct_refuted : exists E a n s,
  p_os (e_p E) = Linux /\ good_pid E /\ faithful E /\ never_fails E /\ in_space E a n /\
  snd (readStruct E a n s) = Err EUndefined.
Proof. exact short_struct. Qed.
Print Assumptions c15_short_struct_refuted.
Theorem c15_short_array_refuted : exists E a size count s,
  p_os (e_p E) = Linux /\ good_pid E /\ faithful E /\ never_fails E /\ in_space E a (size * count) /\
  snd (readArray E a size count s) = Err EUndefined.
Proof. exact short_array. Qed.
Print Assumptions c15_short_array_refuted.
