(** * MemSpec: vocabulary for statements about process memory. *)
From Coq Require Import ZArith List Bool.
From Verif Require Import PyBase Platform CallModel MemModel.
Import ListNotations.
Open Scope Z_scope.

(** The bytes [d] are in memory, from address [a] on. *)
Definition stored (k : kmem) (a : Z) (d : list byte) : Prop :=
  forall i b, nth_error d i = Some b -> k_byte k (a + Z.of_nat i) = Some b.

(** The [n] bytes at [a] are mapped. *)
Definition mapped (k : kmem) (a n : Z) : Prop :=
  forall x, a <= x < a + n -> k_byte k x <> None.

(** [w] is the address of the word containing the byte at [x]. *)
Definition word_of (p : platform) (x w : Z) : Prop :=
  (word_size p | w) /\ w <= x < w + word_size p.

(** Every word with a byte in [a, a+n) is mapped / can be poked. *)
Definition words_mapped (p : platform) (k : kmem) (a n : Z) : Prop :=
  forall x w, a <= x < a + n -> word_of p x w -> mapped k w (word_size p).
Definition words_pokable (p : platform) (k : kmem) (a n : Z) : Prop :=
  forall x w, a <= x < a + n -> word_of p x w ->
  forall y, w <= y < w + word_size p -> k_pokable k y = true.

(** The memory [k'] is [k] with the bytes [d] written at [a] and nothing else changed. *)
Definition written (k k' : kmem) (a : Z) (d : list byte) : Prop :=
  (forall x, k_byte k' x =
     match (if a <=? x then nth_error d (Z.to_nat (x - a)) else None) with
     | Some b => Some b
     | None => k_byte k x
     end) /\
  (forall x, k_pokable k' x = k_pokable k x).

(** [a, a+n) lies in the address space, and below 2^63 when the C extension is
    used (it takes signed 64-bit addresses). *)
Definition in_space (E : penv) (a n : Z) : Prop :=
  0 <= a /\ a + n <= 2 ^ (8 * word_size (e_p E)) /\ (e_be E = Cptrace -> a + n <= 2 ^ 63).

(** Process identifiers. *)
Definition good_pid (E : penv) : Prop := 0 <= e_pid E < 2 ^ 31.

(** What /proc/pid/mem may answer: true bytes, at most as many as asked for, and for a
    fully mapped range either all of them or (access denied) none. *)
Definition faithful (E : penv) : Prop :=
  forall k a n d, 0 <= a -> 0 <= n -> e_read E k a n = Ok d ->
    stored k a d /\ zlen d <= n /\ (mapped k a n -> d = [] \/ zlen d = n).
(** ... and it does not raise for mapped ranges. *)
Definition never_fails (E : penv) : Prop :=
  forall k a n, 0 <= a -> 0 <= n -> mapped k a n -> exists d, e_read E k a n = Ok d.
(** open() either works or raises IOError. *)
Definition open_ok (E : penv) : Prop :=
  e_open E = Ok tt \/ exists e, e_open E = Err (EOSError e).

(** What may be assumed about the process object before reading [a, hi): either the fallback is already in use,
    or /proc/pid/mem has not been closed and the addresses are below 2^63. *)
Definition file_usable (s : pstate) (hi : Z) : Prop :=
  s_fallback s = true \/ (s_file s <> FileClosed /\ hi <= 2 ^ 63).

(** The bytes before the first NUL. *)
Fixpoint upto_nul (d : list byte) : list byte :=
  match d with
  | [] => []
  | b :: d => if b2z b =? 0 then [] else b :: upto_nul d
  end.
(** [i] is the index of the first NUL. *)
Definition first_nul (d : list byte) (i : nat) : Prop :=
  nth_error d i = Some (z2b 0) /\ ~ In (z2b 0) (firstn i d).
