(** * UptimeSpec: /proc/uptime as Linux prints it. *)
From Coq Require Import ZArith List Ascii String.
From Verif Require Import PyBase.
Import ListNotations.
Open Scope Z_scope.

(** Linux, fs/proc/uptime.c: "%lu.%02lu %lu.%02lu\n", the time since the start and the idle time, in hundredths of a second *)
Definition hundredths (n : Z) : text := str_int (n / 100) ++ T "." ++ fmt_int0 10 2 (n mod 100).
Definition uptime_file (up idle : Z) : text := hundredths up ++ T " " ++ hundredths idle ++ [z2b 10].
(** A fraction x = (n, d) is the number a / b up to a relative error of 2^-53 *)
Definition close (x : Z * Z) (a b : Z) : Prop := 0 < snd x /\ Z.abs (fst x * b - a * snd x) * 2 ^ 53 <= a * snd x.
