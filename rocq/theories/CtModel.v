(** * CtModel: ctypes structures with arrays, nested structures and unions, and the structures of ptrace/binding that are
    not registers of the main set.

    The first part is not code of /repo: it is the layout rule of ctypes (natural alignment, no packing). *)
From Coq Require Import ZArith List Ascii String Bool.
From Verif Require Import PyBase Platform.
Import ListNotations.
Open Scope Z_scope.

(** a ctypes type: an integer of some size, an array, a structure, a union *)
Inductive cty : Type :=
  | TInt (size : Z)
  | TArray (elem : cty) (count : Z)
  | TStruct (fs : list (text * cty))
  | TUnion (fs : list (text * cty)).

Definition round_to (off n : Z) : Z := (off + n - 1) / n * n.

Fixpoint alignof (c : cty) : Z :=
  match c with
  | TInt size => size
  | TArray e _ => alignof e
  | TStruct fs | TUnion fs =>
      (fix max (l : list (text * cty)) := match l with [] => 1 | (_, f) :: l => Z.max (alignof f) (max l) end) fs
  end.
(** [ctypes.sizeof] *)
Fixpoint ct_sizeof (c : cty) : Z :=
  match c with
  | TInt size => size
  | TArray e n => ct_sizeof e * n
  | TStruct fs =>
      round_to ((fix last (off : Z) (l : list (text * cty)) :=
                   match l with [] => off | (_, f) :: l => last (round_to off (alignof f) + ct_sizeof f) l end) 0 fs)
               (alignof c)
  | TUnion fs =>
      round_to ((fix max (l : list (text * cty)) := match l with [] => 0 | (_, f) :: l => Z.max (ct_sizeof f) (max l) end) fs)
               (alignof c)
  end.
(** every integer and array of the type: path, offset, size in bytes *)
Fixpoint leaves (path : list text) (off : Z) (c : cty) : list (list text * (Z * Z)) :=
  match c with
  | TInt _ | TArray _ _ => [(path, (off, ct_sizeof c))]
  | TStruct fs =>
      (fix go (o : Z) (l : list (text * cty)) :=
         match l with
         | [] => []
         | (name, f) :: l =>
             let o := round_to o (alignof f) in leaves (path ++ [name]) (off + o) f ++ go (o + ct_sizeof f) l
         end) 0 fs
  | TUnion fs =>
      (fix go (l : list (text * cty)) :=
         match l with [] => [] | (name, f) :: l => leaves (path ++ [name]) off f ++ go l end) fs
  end.

(** ** ptrace/binding/linux_struct.py *)
Definition c_char : cty := TInt 1.
Definition c_ushort : cty := TInt 2.
Definition c_int : cty := TInt 4.
Definition c_uint : cty := TInt 4.
Definition c_uint64 : cty := TInt 8.
Definition c_ulong (p : platform) : cty := TInt (word_size p).
Definition c_void_p (p : platform) : cty := TInt (word_size p).
Definition c_size_t (p : platform) : cty := TInt (word_size p).
Definition pid_t : cty := c_int.
Definition uid_t : cty := c_ushort.
Definition clock_t : cty := c_uint.

(** ptrace/binding/linux_struct.py 219-244 *)
Definition user_fpregs_struct (p : platform) : cty :=
  if p_64bits p
  then TStruct [(T "cwd", c_ushort); (T "swd", c_ushort); (T "ftw", c_ushort); (T "fop", c_ushort);
                (T "rip", c_uint64); (T "rdp", c_uint64); (T "mxcsr", c_uint); (T "mxcr_mask", c_uint);
                (T "st_space", TArray c_uint 32); (T "xmm_space", TArray c_uint 64); (T "padding", TArray c_uint 24)]
  else TStruct [(T "cwd", c_ulong p); (T "swd", c_ulong p); (T "twd", c_ulong p); (T "fip", c_ulong p);
                (T "fcs", c_ulong p); (T "foo", c_ulong p); (T "fos", c_ulong p); (T "st_space", TArray (c_ulong p) 20)].
(** ptrace/binding/linux_struct.py 247-263; the class exists on 32 bits only *)
Definition user_fpxregs_struct (p : platform) : option cty :=
  if p_64bits p then None
  else Some (TStruct [(T "cwd", c_ushort); (T "swd", c_ushort); (T "twd", c_ushort); (T "fop", c_ushort);
                      (T "fip", c_ulong p); (T "fcs", c_ulong p); (T "foo", c_ulong p); (T "fos", c_ulong p);
                      (T "mxcsr", c_ulong p); (T "reserved", c_ulong p); (T "st_space", TArray (c_ulong p) 32);
                      (T "xmm_space", TArray (c_ulong p) 32); (T "padding", TArray (c_ulong p) 56)]).
(** ptrace/binding/linux_struct.py 268-301 *)
Definition _sifields_sigfault_t (p : platform) : cty := TUnion [(T "_addr", c_void_p p)].
Definition _sifields_sigchld_t : cty :=
  TStruct [(T "pid", pid_t); (T "uid", uid_t); (T "status", c_int); (T "utime", clock_t); (T "stime", clock_t)].
Definition _sifields_t (p : platform) : cty :=
  TUnion [(T "pad", TArray c_char (128 - 3 * ct_sizeof c_int)); (T "_sigchld", _sifields_sigchld_t);
          (T "_sigfault", _sifields_sigfault_t p)].
Definition siginfo (p : platform) : cty :=
  TStruct [(T "si_signo", c_int); (T "si_errno", c_int); (T "si_code", c_int); (T "_sifields", _sifields_t p)].
(** ptrace/binding/linux_struct.py 304-308 *)
Definition iovec_struct (p : platform) : cty := TStruct [(T "buf", c_void_p p); (T "len", c_size_t p)].
(** ptrace/binding/freebsd_struct.py 69-75, ptrace/binding/openbsd_struct.py 41-47 *)
Definition ptrace_io_desc (p : platform) : cty :=
  TStruct [(T "piod_op", c_int); (T "piod_offs", c_void_p p); (T "piod_addr", c_void_p p); (T "piod_len", c_size_t p)].
