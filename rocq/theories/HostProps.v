(** * HostProps: C96, C97, C98, what the program learns from its host. *)
From Coq Require Import ZArith List Ascii String Bool.
From Verif Require Import PyBase Platform HostModel HostSpec HostProofs.
Import ListNotations.
Open Scope Z_scope.

(** ** C96: CPU and operating system *)
Theorem c96_cpu_partial : forall byteorder pointer m bits, exists f, cpu_info byteorder pointer (Some m) bits = Ok f /\ says f (cpu_of_machine m) /\
  f_bigendian f = text_eqb byteorder (T "big") /\ f_64bits f = (pointer =? 8) /\ f_word_size f = (if pointer =? 8 then 8 else 4) /\ f_max_uint f = 2 ^ (8 * f_word_size f) - 1.
Proof. exact machine_says. Qed.
Print Assumptions c96_cpu_partial.
Theorem c96_one : forall f c, says f c -> (count_true [f_ppc32 f; f_ppc64 f; f_i386 f; f_x86_64 f; f_arm32 f; f_aarch64 f; f_riscv32 f; f_riscv64 f] <= 1)%nat.
Proof. exact says_one. Qed.
Print Assumptions c96_one.
Theorem c96_windows : forall byteorder pointer bits, match cpu_info byteorder pointer None bits with
  | Ok f => bits = T "32bit" /\ says f I386 \/ bits = T "64bit" /\ says f X86_64
  | Err e => e = EValueError /\ bits <> T "32bit" /\ bits <> T "64bit"
  end.
Proof. exact windows_says. Qed.
Print Assumptions c96_windows.
Example c96_cpu_ex : cpu_info (T "little") 8 (Some (T "x86_64")) [] = Ok (CpuFlags false true 8 18446744073709551615 false false false true false false false false true false false false).
Proof. reflexivity. Qed.
Theorem c96_system : forall platform version, exists o, says_os (os_tools platform version) o /\
  (o = Some Linux <-> starts_with (T "linux") platform = true) /\ (o = Some MacOSX <-> platform = T "darwin") /\ (o = Some OpenBSD <-> starts_with (T "openbsd") platform = true) /\
  (o = Some FreeBSD <-> starts_with (T "freebsd") platform = true \/ starts_with (T "gnukfreebsd") platform = true).
Proof. exact system_says. Qed.
Print Assumptions c96_system.
Example c96_system_ex : os_tools (T "linux2") (T "3.6.9 [PyPy 7.3.1 with GCC 7.3.1]") = OsFlags true true false false false false true true /\
  says_os (os_tools (T "gnukfreebsd9") (T "3.8")) (Some FreeBSD) /\ says_os (os_tools (T "win32") (T "3.8")) None.
Proof. split; [reflexivity|]. split; repeat split. Qed.
(** A 32-bit Python on a 64-bit kernel: the words of the tracer are not those of the CPU it believes in *)
Theorem c96_mixed_refuted : exists f, cpu_info (T "little") 4 (Some (T "x86_64")) [] = Ok f /\ f_x86_64 f = true /\ f_word_size f = 4 /\ f_i386 f = false.
Proof. exact mixed_wrong. Qed.
Print Assumptions c96_mixed_refuted.
(** arm64 (the name of aarch64 on macOS and the BSDs) is taken for a 32-bit ARM; i586 is not recognized *)
Theorem c96_names_refuted : (exists f, cpu_info (T "little") 8 (Some (T "arm64")) [] = Ok f /\ f_arm32 f = true /\ f_aarch64 f = false) /\
  exists f, cpu_info (T "little") 4 (Some (T "i586")) [] = Ok f /\ f_intel f = false.
Proof. exact names_wrong. Qed.
Print Assumptions c96_names_refuted.

(** ** C97: the terminal *)
Theorem c97_echo : forall state b state', enableEchoMode true (Ok state) None = Ok (b, Some state') ->
  b = true /\ Z.testbit (tm_lflags state) 3 = false /\ Z.testbit (tm_lflags state') 3 = true /\ (forall k, 0 <= k -> k <> 3 -> Z.testbit (tm_lflags state') k = Z.testbit (tm_lflags state) k) /\
  tm_before state' = tm_before state /\ tm_after state' = tm_after state.
Proof. exact echo_on. Qed.
Print Assumptions c97_echo.
Theorem c97_when : forall state, enableEchoMode true (Ok state) None =
  if Z.testbit (tm_lflags state) 3 then Ok (false, None) else Ok (true, Some (Termios (tm_before state) (Z.setbit (tm_lflags state) 3) (tm_after state))).
Proof. exact echo_spec. Qed.
Print Assumptions c97_when.
Theorem c97_twice : forall state b state', enableEchoMode true (Ok state) None = Ok (b, Some state') -> enableEchoMode true (Ok state') None = Ok (false, None).
Proof. exact echo_twice. Qed.
Print Assumptions c97_twice.
Theorem c97_pipe : forall state e, enableEchoMode false state e = Ok (false, None).
Proof. exact echo_pipe. Qed.
Print Assumptions c97_pipe.
Example c97_echo_ex : enableEchoMode true (Ok (Termios [1; 2; 3] 35367 [5])) None = Ok (true, Some (Termios [1; 2; 3] 35375 [5])) /\ enableEchoMode true (Ok (Termios [1; 2; 3] 35375 [5])) None = Ok (false, None).
Proof. split; reflexivity. Qed.
Theorem c97_width_partial : forall rows cols, 0 <= rows < 65536 -> 0 <= cols < 32768 -> terminalWidth (le16 rows ++ le16 cols) = Ok cols.
Proof. exact width_right. Qed.
Print Assumptions c97_width_partial.
Example c97_width_ex : terminalWidth [z2b 24; z2b 0; z2b 132; z2b 1] = Ok 388.
Proof. reflexivity. Qed.
Theorem c97_width_refuted : exists rows cols, 0 <= rows < 65536 /\ 0 <= cols < 65536 /\ terminalWidth (le16 rows ++ le16 cols) = Ok (-1) /\ cols = 65535.
Proof. exact width_wrong. Qed.
Print Assumptions c97_width_refuted.

(** ** C98: dates *)
Theorem c98_utc : forall zone value, 0 <= value <= 2147483647 -> timestampUNIX zone value false = Ok value.
Proof. exact date_utc. Qed.
Print Assumptions c98_utc.
Theorem c98_local : forall zone value, 0 <= value <= 2147483647 -> Z.abs (zone 0) <= 86400 -> timestampUNIX zone value true = Ok (value + zone 0).
Proof. exact date_local. Qed.
Print Assumptions c98_local.
(** The local date is right when the zone has the offset it had on 1 January 1970 *)
Theorem c98_local_partial : forall zone value, 0 <= value <= 2147483647 -> Z.abs (zone 0) <= 86400 -> zone value = zone 0 -> timestampUNIX zone value true = Ok (local_date zone value).
Proof. exact date_fixed. Qed.
Print Assumptions c98_local_partial.
Example c98_local_ex : timestampUNIX (fun _ => 3600) 1154175644 true = Ok 1154179244 /\ timestampUNIX (fun _ => 3600) 1154175644 false = Ok 1154175644.
Proof. split; reflexivity. Qed.
Theorem c98_local_refuted : exists zone value d, 0 <= value <= 2147483647 /\ (forall t, Z.abs (zone t) <= 86400) /\ timestampUNIX zone value true = Ok d /\ local_date zone value = d + 3600.
Proof. exact date_wrong. Qed.
Print Assumptions c98_local_refuted.
(** The documented ValueError is never raised *)
Theorem c98_never_value : forall zone value b, timestampUNIX zone value b <> Err EValueError.
Proof. exact date_never_value. Qed.
Print Assumptions c98_never_value.
Theorem c98_range_refuted : exists zone value, ~ 0 <= value <= 2147483647 /\ timestampUNIX zone value false = Ok value.
Proof. exact date_unchecked. Qed.
Print Assumptions c98_range_refuted.
(** The boot date: computed once, and not kept when it could not be read *)
Theorem c98_boot : forall zone seconds, 0 <= seconds <= 2147483647 -> Z.abs (zone 0) <= 86400 -> zone seconds = zone 0 -> getSystemBoot zone None (Ok seconds) = (Some (local_date zone seconds), Ok (local_date zone seconds)).
Proof. exact boot_right. Qed.
Print Assumptions c98_boot.
Theorem c98_boot_kept : forall zone value seconds v value', getSystemBoot zone value seconds = (value', Ok v) -> value' = Some v /\ forall later, getSystemBoot zone value' later = (value', Ok v).
Proof. exact boot_kept. Qed.
Print Assumptions c98_boot_kept.
Theorem c98_boot_fails : forall zone e, getSystemBoot zone None (Err e) = (None, Err e).
Proof. exact boot_fails. Qed.
Print Assumptions c98_boot_fails.
Example c98_boot_ex : getSystemBoot (fun _ => 0) None (Ok 77) = (Some 77, Ok 77) /\ getSystemBoot (fun _ => 0) (Some 77) (Err EProcError) = (Some 77, Ok 77).
Proof. split; reflexivity. Qed.
(** Out of the years 1 to 9999: OverflowError *)
Theorem c98_overflow : forall zone value, value < -62135596800 \/ 253402300799 < value -> timestampUNIX zone value false = Err EOverflowError.
Proof. exact date_overflow. Qed.
Print Assumptions c98_overflow.
Example c98_overflow_ex : timestampUNIX (fun _ => 0) 253402300800 false = Err EOverflowError.
Proof. reflexivity. Qed.
(** PyPy, from sys.version (C96) *)
Theorem c96_pypy : forall platform version, o_pypy (os_tools platform version) = true <-> exists a b, lower version = a ++ T "pypy" ++ b.
Proof. exact pypy_says. Qed.
Print Assumptions c96_pypy.
Example c96_pypy_ex : o_pypy (os_tools (T "linux2") (T "3.6.9 [PyPy 7.3.1 with GCC 7.3.1]")) = true /\ o_pypy (os_tools (T "linux2") (T "3.6.9 [GCC 7.3.1]")) = false.
Proof. split; reflexivity. Qed.
