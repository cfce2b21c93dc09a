(** * ArgSpec: vocabulary for statements about calls and argument texts. *)
From Coq Require Import ZArith List Ascii String Bool.
From Verif Require Import PyBase Platform IntModel IntSpec TabModel ArgModel.
Import ListNotations.
Open Scope Z_scope.

(** ** Formatting of calls (C37) *)

(** [kept] is [l] without its trailing empty texts. *)
Definition without_trailing_empty (l kept : list text) : Prop :=
  (exists n, l = kept ++ repeat [] n) /\ (kept = [] \/ exists front x, kept = front ++ [x] /\ x <> []).
Definition non_empty (o : option text) (t : text) : Prop := o = Some t /\ t <> [].
Definition absent (o : option text) : Prop := o = None \/ o = Some [].

(** ** Integers (C38) *)

(** The C type of a system call argument: signedness and width on the platform *)
Definition c_int_type (p : platform) (ty : text) : option (bool * Z) :=
  dget text_eqb ty
    [(T "int", (true, 32)); (T "pid_t", (true, 32)); (T "clockid_t", (true, 32)); (T "long", (true, 8 * word_size p));
     (T "unsigned int", (false, 32)); (T "u32", (false, 32)); (T "uid_t", (false, 32)); (T "gid_t", (false, 32));
     (T "socklen_t", (false, 32)); (T "size_t", (false, 8 * word_size p)); (T "unsigned long", (false, 8 * word_size p))].
(** [n] is the number a function with a parameter of this type receives when the register contains [value]. *)
Definition receives (p : platform) (ty : text) (value n : Z) : Prop :=
  exists signed bits, c_int_type p ty = Some (signed, bits) /\ (exists k, value = n + k * 2 ^ bits) /\
    if signed : bool then - 2 ^ (bits - 1) <= n < 2 ^ (bits - 1) else 0 <= n < 2 ^ bits.
Definition treated_calls : list text :=
  [T "lseek"; T "futex"; T "fcntl"; T "ipc"; T "socket"; T "getsockopt"; T "setsockopt"; T "getrlimit"; T "setrlimit";
   T "sigprocmask"; T "rt_sigprocmask"; T "access"; T "open"; T "openat"; T "name_to_handle_at"; T "mmap"; T "mmap2";
   T "clone"; T "execve"; T "socketcall"; T "write"].
(** Arguments without any treatment of their own: the call is not one of those with named values, callbacks or
    special cases, and the argument is no signal number. *)
Definition ordinary (syscall name : text) : Prop :=
  name <> [] /\ name <> T "signum" /\ ~ In syscall treated_calls.

(** The types shown as the register contains them *)
Definition raw_type (ty : text) : Prop := In ty [T "unsigned int"; T "unsigned long"; T "u32"].

(** ** Words in memory *)
Definition words_at (p : platform) (v : view) (address : Z) (l : list Z) : Prop :=
  forall i w, nth_error l i = Some w -> v_word v (address + Z.of_nat i * word_size p) = Ok w.

(** ** Bit sets in memory (C61): an array of machine words; bit i is bit (i mod wordsize) of word (i / wordsize) *)
Definition bit_of (p : platform) (bytes : list byte) (i : Z) : bool :=
  let W := word_size p in
  Z.testbit (host_value (p_bigendian p) (slice (i / (8 * W) * W) (i / (8 * W) * W + W) bytes)) (i mod (8 * W)).
Definition increasing (l : list Z) : Prop := forall a b i j, nth_error l i = Some a -> nth_error l j = Some b -> (i < j)%nat -> a < b.

(** ** Network byte order (C41) *)
Definition dotted (bs : list byte) : text := join (T ".") (map (fun b => str_int (b2z b)) bs).
(** Groups of two bytes in hexadecimal *)
Fixpoint groups (bs : list byte) : list text :=
  match bs with
  | a :: b :: bs => fmt_int0 16 4 (b2z a * 256 + b2z b) :: groups bs
  | _ => []
  end.

(** The process memory contains [bytes] at [address]: every read inside gives them. *)
Definition memory_at (v : view) (address : Z) (bytes : list byte) : Prop :=
  forall n, 0 <= n <= zlen bytes -> v_bytes v address n = Ok (firstn (Z.to_nat n) bytes).
(** What is shown for a pointer whose target has the text [t] *)
Definition pointed (p : platform) (opts : options) (t : text) (address : Z) (shown : text) : Prop :=
  if o_write_address opts then exists a, hex_text a address /\ shown = t ++ T " at " ++ a else shown = t.

(** ** socketcall(2): linux/net.h *)
Definition net_h : list (Z * text) :=
  [(1, T "socket"); (2, T "bind"); (3, T "connect"); (4, T "listen"); (5, T "accept"); (6, T "getsockname"); (7, T "getpeername");
   (8, T "socketpair"); (9, T "send"); (10, T "recv"); (11, T "sendto"); (12, T "recvfrom"); (13, T "shutdown");
   (14, T "setsockopt"); (15, T "getsockopt"); (16, T "sendmsg"); (17, T "recvmsg"); (18, T "accept4"); (19, T "recvmmsg");
   (20, T "sendmmsg")].

(** ** Arrays of strings (C39) *)
Definition null_text (opts : options) : text := if o_write_address opts then T "NULL at NULL" else T "NULL".
Definition more_text (n : Z) : text := T "(... more than " ++ str_int n ++ T " strings ...)".

(** ** Pointer arguments (C61, C69, C70) *)
(** An argument [a] of type "base *" or "const base *" of a call without special treatment of this name *)
Definition pointer_to (a : arg) (base : text) : Prop :=
  base <> [] /\ strip base = base /\ starts_with (T "const") base = false /\
  (a_type a = Some (base ++ T " *") \/ a_type a = Some (T "const " ++ base ++ T " *")).
Definition untreated (f : func) (a : arg) : Prop :=
  exists nm, a_name a = Some nm /\ nm <> [] /\ nm <> T "signum" /\
    (~ In (f_name f) treated_calls \/ (f_name f = T "rt_sigprocmask" /\ nm <> T "how")).
