(** * UptimeProps: C142 — the uptime. *)
From Coq Require Import ZArith List Ascii String.
From Verif Require Import PyBase UptimeModel UptimeSpec UptimeProofs.
Import ListNotations.
Open Scope Z_scope.

(** For the first 2^32 seconds (136 years), getUptime() is exactly the time that Linux prints, in microseconds, although it goes through two floating point numbers. *)
Theorem c142_exact : forall up idle, 0 <= up < 2 ^ 32 * 100 -> 0 <= idle -> getUptime (Ok (Ok (uptime_file up idle))) = Ok (up * 10 ^ 4).
Proof. exact uptime_exact. Qed.
Print Assumptions c142_exact.
(** The floating point number of a fraction has a relative error of at most 2^-53. *)
Theorem c142_double : forall n d, 0 <= n -> 0 < d -> close (double n d) n d.
Proof. exact double_close. Qed.
Print Assumptions c142_double.
(** Numbers are rounded to the nearest integer, to the even one of two. *)
Theorem c142_nearest : forall n d, 0 < d -> 2 * Z.abs (d * nearest n d - n) <= d /\ (2 * Z.abs (d * nearest n d - n) = d -> Z.Even (nearest n d)).
Proof. exact nearest_even. Qed.
Print Assumptions c142_nearest.
(** A billion days are too many for timedelta(). *)
Theorem c142_overflow : forall n d, 0 < d -> (10 ^ 9 * 86400) * d <= n -> timedelta_us (n, d) = Err EOverflowError.
Proof. exact too_long. Qed.
Print Assumptions c142_overflow.
(** timedelta() takes all floating point numbers near a hundredth to this hundredth. *)
Theorem c142_delta : forall f n, 0 <= fst f -> close f n 100 -> 0 <= n < 2 ^ 32 * 100 -> timedelta_us f = Ok (n * 10 ^ 4).
Proof. exact microseconds. Qed.
Print Assumptions c142_delta.
(** Only a file that cannot be opened gives ProcError; an error of read() is not changed. *)
Theorem c142_errors : forall n e, getUptime (Err (EOSError n)) = Err EProcError /\ getUptime (Ok (Err e)) = Err e.
Proof. exact uptime_errors. Qed.
Print Assumptions c142_errors.

(** 350735.47 is not a floating point number: 350735.47 * 2^34 is not an integer.  With 2^40 seconds the last microseconds are lost. *)
Example c142_ex :
  uptime_file 35073547 23427234 = T "350735.47 234272.34" ++ [z2b 10]
  /\ double 35073547 100 = (6025589492788756, 2 ^ 34) /\ 6025589492788756 * 100 - 35073547 * 2 ^ 34 = -48
  /\ getUptime (Ok (Ok (uptime_file 35073547 23427234))) = Ok 350735470000
  /\ getUptime (Ok (Ok (T "0.00 0.00"))) = Ok 0 /\ getUptime (Ok (Ok (T "up"))) = Err EValueError /\ getUptime (Ok (Ok [])) = Err EIndexError
  /\ getUptime (Ok (Ok (uptime_file (2 ^ 40 * 100 + 47) 0))) <> Ok ((2 ^ 40 * 100 + 47) * 10 ^ 4).
Proof. repeat (split; [ vm_compute; reflexivity | ]). vm_compute. discriminate. Qed.
