(** * UptimeModel: ptrace/linux_proc.py 216-223 (getUptime), with floating point numbers (IEEE 754 binary64) and datetime.timedelta. *)
From Coq Require Import ZArith List Ascii String Bool.
From Verif Require Import PyBase.
Import ListNotations.
Open Scope Z_scope.

(** ** Numbers: (n, d) stands for n / d, with d > 0 *)

(** The nearest integer to n / d; the even one of two *)
Definition nearest (n d : Z) : Z :=
  let q := n / d in let r := n mod d in
  if 2 * r <? d then q else if d <? 2 * r then q + 1 else if Z.even q then q else q + 1.
(** n / d divided by 2^e *)
Definition scale (n d e : Z) : Z * Z := if 0 <=? e then (n, d * 2 ^ e) else (n * 2 ^ (- e), d).
(** The floating point number nearest to n / d >= 0, with 53 significant bits: m * 2^e with 2^52 <= m <= 2^53.  Numbers too large or too small for the exponent of a
    binary64 do not occur here. *)
Definition double (n d : Z) : Z * Z :=
  if n =? 0 then (0, 1) else
  let e0 := Z.log2 n - Z.log2 d - 53 in
  let '(a, b) := scale n d e0 in
  let e := if a <? 2 ^ 53 * b then e0 else e0 + 1 in
  let '(a, b) := scale n d e in
  let m := nearest a b in
  if 0 <=? e then (m * 2 ^ e, 1) else (m, 2 ^ (- e)).

(** ** Python *)

(** float(s) for digits, with or without a point and more digits.  Signs, exponents, underscores, inf and nan do not occur in /proc/uptime: ValueError here *)
Definition py_float (s : text) : res (Z * Z) :=
  let number digits decimals :=
    match read_uint 10 digits with Some n => Ok (double n (10 ^ zlen decimals)) | None => Err EValueError end in
  match split1 "." s with
  | Some (a, b) => if forallb is_digit b then number (a ++ b) b else Err EValueError
  | None => number s []
  end.
(** timedelta(seconds=x) in microseconds, for x >= 0 (Modules/_datetimemodule.c, accum() and delta_new(): the fraction is multiplied by 10^6 as a floating point number and
    rounded to the nearest integer; the even one of two, where the seconds, an even number of microseconds, do not matter) *)
Definition timedelta_us (x : Z * Z) : res Z :=
  let '(n, d) := x in
  let '(rn, rd) := double (n mod d * 10 ^ 6) d in
  let us := n / d * 10 ^ 6 + nearest rn rd in
  if us <? 1000000000 * 86400 * 10 ^ 6 then Ok us else Err EOverflowError.

(** ptrace/linux_proc.py 23-40, 216-223: [file] is the result of open("/proc/uptime"), and then of read(); only an error of open() is made a ProcError *)
Definition getUptime (file : res (res text)) : res Z :=
  do reading <- match file with Err (EOSError _) => Err EProcError | r => r end;
  do uptime <- reading;
  match split_ws (strip uptime) with
  | word :: _ => do x <- py_float word; timedelta_us x
  | [] => Err EIndexError
  end.
