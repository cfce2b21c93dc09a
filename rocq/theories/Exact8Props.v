(** * Exact8Props: reading /proc/pid/mem, for any address and any file (C11, C15). *)
From Coq Require Import ZArith List Ascii String Bool.
From Verif Require Import PyBase Platform CallModel MemModel MemSpec MemProofs MemProofs2 MemProofs3 MemExamples MemFinal ExactSpec4 ExactProofs8.
Import ListNotations.
Open Scope Z_scope.

(** Any range from 2^63 on: OverflowError, mapped or not *)
Theorem c11_high_exact : forall E a n s, p_os (e_p E) = Linux -> uses_file E s -> 2 ^ 63 <= a -> exists s', readBytes E a n s = (s', Err EOverflowError) /\ s_mem s' = s_mem s.
Proof. exact high_exact. Qed.
Print Assumptions c11_high_exact.
(** Whatever the file gives, if anything, is returned as it is, however short *)
Theorem c11_short_exact : forall E a n s d, p_os (e_p E) = Linux -> uses_file E s -> 0 <= a < 2 ^ 63 -> e_read E (s_mem s) a n = Ok d -> d <> [] ->
  exists s', readBytes E a n s = (s', Ok d) /\ s_mem s' = s_mem s.
Proof. exact short_exact. Qed.
Print Assumptions c11_short_exact.
(** After the file was closed no range is read *)
Theorem c11_closed_exact : forall E a n s, p_os (e_p E) = Linux -> s_fallback s = false -> s_file s = FileClosed -> readBytes E a n s = (s, Err EProcessError).
Proof. exact closed_exact. Qed.
Print Assumptions c11_closed_exact.
Example c11_exact_ex : let E := prefix_env Ctypes linux_x86_64 in uses_file E (fresh page_mem) /\ e_read E page_mem 8190 4 = Ok (map z2b [254; 255]) /\
  snd (readBytes E 8190 4 (fresh page_mem)) = Ok (map z2b [254; 255]) /\ snd (readBytes E (2 ^ 63) 4 (fresh page_mem)) = Err EOverflowError.
Proof. cbv zeta. split; [split; [reflexivity|right; split; reflexivity]|]. vm_compute. auto. Qed.
(** Whenever the file gives fewer bytes than the structure has, and only then, the bytes after the buffer are read *)
Theorem c15_struct_exact : forall E a n s d, p_os (e_p E) = Linux -> uses_file E s -> 0 <= a < 2 ^ 63 -> e_read E (s_mem s) a n = Ok d -> d <> [] -> zlen d <= n ->
  (snd (readStruct E a n s) = Err EUndefined <-> zlen d < n) /\ (zlen d = n -> snd (readStruct E a n s) = Ok d).
Proof. exact struct_short. Qed.
Print Assumptions c15_struct_exact.
Example c15_struct_exact_ex : let E := prefix_env Ctypes linux_x86_64 in e_read E page_mem 8190 4 = Ok (map z2b [254; 255]) /\ e_read E page_mem 8190 2 = Ok (map z2b [254; 255]) /\
  snd (readStruct E 8190 4 (fresh page_mem)) = Err EUndefined /\ snd (readStruct E 8190 2 (fresh page_mem)) = Ok (map z2b [254; 255]).
Proof. vm_compute. auto. Qed.
