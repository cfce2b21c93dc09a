(** * IntModel: ptrace/ctypes_tools.py *)
From Coq Require Import ZArith List Ascii String Bool.
From Verif Require Import PyBase Platform.
Import ListNotations.
Open Scope Z_scope.

(** ptrace/ctypes_tools.py 6-19 *)
Definition int2uint64 (value : Z) : Z := Z.land value 0xffffffffffffffff.

(** ptrace/ctypes_tools.py 22-39 *)
Definition uint2int64 (value : Z) : Z :=
  let value := Z.land value 0xffffffffffffffff in
  if Z.land value 0x8000000000000000 =? 0 then value
  else value - 0x10000000000000000.

(** ptrace/ctypes_tools.py 42-46 *)
Definition truncateWord32 (value : Z) : Z := Z.land value 0xFFFFFFFF.
(** ptrace/ctypes_tools.py 49-53 *)
Definition truncateWord64 (value : Z) : Z := Z.land value 0xFFFFFFFFFFFFFFFF.

(** ptrace/ctypes_tools.py 56-60, 63-67, 70-74 *)
Definition formatUintHex16 (value : Z) : text := T "0x" ++ fmt_int0 16 4 value.
Definition formatUintHex32 (value : Z) : text := T "0x" ++ fmt_int0 16 8 value.
Definition formatUintHex64 (value : Z) : text := T "0x" ++ fmt_int0 16 16 value.

(** ptrace/ctypes_tools.py 77-88 *)
Definition int2uint32 (value : Z) : Z := Z.land value 0xffffffff.

(** ptrace/ctypes_tools.py 91-111 *)
Definition uint2int32 (value : Z) : Z :=
  let value := Z.land value 0xffffffff in
  if Z.land value 0x80000000 =? 0 then value else value - 0x100000000.

(** ptrace/ctypes_tools.py 114-125: aliases chosen at import time *)
Definition uint2int : Z -> Z := uint2int32.
Definition int2uint : Z -> Z := int2uint32.
Definition ulong2long (p : platform) : Z -> Z := if p_64bits p then uint2int64 else uint2int32.
Definition long2ulong (p : platform) : Z -> Z := if p_64bits p then int2uint64 else int2uint32.
Definition formatWordHex (p : platform) : Z -> text :=
  if p_64bits p then formatUintHex64 else formatUintHex32.
Definition truncateWord (p : platform) : Z -> Z :=
  if p_64bits p then truncateWord64 else truncateWord32.

(** ptrace/ctypes_tools.py 128-136 *)
Definition formatAddress (p : platform) (address : Z) : text :=
  if negb (address =? 0) then formatWordHex p address else T "NULL".

(** ptrace/ctypes_tools.py 139-143 *)
Definition formatAddressRange (p : platform) (start end_ : Z) : text :=
  formatWordHex p start ++ T "-" ++ formatWordHex p end_.

(** struct.pack / unpack of an unsigned integer of [n] bytes.  [le_bytes] gives
    the bytes least significant first. *)
Fixpoint le_bytes (n : nat) (v : Z) : list byte :=
  match n with
  | O => []
  | S n => z2b (v mod 256) :: le_bytes n (v / 256)
  end.
Fixpoint le_value (s : list byte) : Z :=
  match s with
  | [] => 0
  | b :: s => b2z b + 256 * le_value s
  end.
(** [big] selects the byte order: '>' = true, '<' = false, native = platform *)
Definition pack_uint (big : bool) (n : nat) (v : Z) : res (list byte) :=
  if (v <? 0) || (256 ^ Z.of_nat n <=? v) then Err EStructError
  else Ok (if big then rev (le_bytes n v) else le_bytes n v).
Definition unpack_uint (big : bool) (n : nat) (s : list byte) : res Z :=
  if (List.length s =? n)%nat
  then Ok (if big then le_value (rev s) else le_value s)
  else Err EStructError.

(** ptrace/ctypes_tools.py 146-150 *)
Definition ntoh_ushort (value : Z) : res Z :=
  do s <- pack_uint true 2 value; unpack_uint false 2 s.
(** ptrace/ctypes_tools.py 153-157 *)
Definition ntoh_uint (value : Z) : res Z :=
  do s <- pack_uint true 4 value; unpack_uint false 4 s.

Definition word_bytes (p : platform) : nat := Z.to_nat (word_size p).

(** ptrace/ctypes_tools.py 160-164.  Format "L" is the native unsigned long: its
    size is taken to be CPU_WORD_SIZE (true on all Unix platforms). *)
Definition word2bytes (p : platform) (word : Z) : res (list byte) :=
  pack_uint (p_bigendian p) (word_bytes p) word.
(** ptrace/ctypes_tools.py 167-171 *)
Definition bytes2word (p : platform) (s : list byte) : res Z :=
  unpack_uint (p_bigendian p) (word_bytes p) s.
