(** * PointSpec: vocabulary for statements about what pointer arguments point to. *)
From Coq Require Import ZArith List Ascii String Bool.
From Verif Require Import PyBase Platform IntSpec ArgModel XraySpec.
Import ListNotations.
Open Scope Z_scope.

(** [t] is the literal of Python of the byte string [s]. *)
Definition bytes_literal (s : list byte) (t : text) : Prop :=
  exists q u, (q = "'"%char \/ q = """"%char) /\ written q s u /\ t = T "b" ++ [q] ++ u ++ [q].
(** [s] is the C string in the array [bs]. *)
Definition c_string (bs s : list byte) : Prop :=
  (bs = s \/ exists rest, bs = s ++ z2b 0 :: rest) /\ ~ In (z2b 0) s.
(** The member of type [c] in the bytes [bs] is shown as [t] *)
Definition member_shown (big : bool) (c : ctype) (bs : list byte) (t : text) : Prop :=
  match c with
  | CInt true n => exists x, signed_of (8 * n) (host_value big bs) x /\ t = str_int x
  | CInt false _ => t = str_int (host_value big bs)
  | CChar => bytes_literal bs t
  | CChars _ => exists s, c_string bs s /\ bytes_literal s t
  | CInAddr | CIn6Addr => False
  end.
Definition plain_member (f : text * ctype) : Prop :=
  match snd f with CInt _ n => In n [1; 2; 4; 8] | CChar => True | CChars n => 0 < n | CInAddr | CIn6Addr => False end.
(** The members with a sign in the structures of Linux: time_t, suseconds_t, long, int and short.  The others are unsigned. *)
Definition signed_members : list (text * text) :=
  [(T "timeval", T "tv_sec"); (T "timeval", T "tv_usec"); (T "timespec", T "tv_sec"); (T "timespec", T "tv_nsec");
   (T "pollfd", T "fd"); (T "pollfd", T "events"); (T "pollfd", T "revents")].
