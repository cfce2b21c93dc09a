(** * StructModel: ctypes structures of unsigned integers.

    Not code of /repo: the layout rules of ctypes.Structure (natural alignment), which the classes of
    ptrace/binding/linux_struct.py, freebsd_struct.py and openbsd_struct.py rely on.  Only unsigned
    integer fields are covered. *)
From Coq Require Import ZArith List Ascii String Bool.
From Verif Require Import PyBase IntModel.
Import ListNotations.
Open Scope Z_scope.

(** [_fields_]: field name and size in bytes *)
Definition fields : Type := list (text * Z).

Definition align_up (off size : Z) : Z := (off + size - 1) / size * size.

(** name, offset, size *)
Fixpoint layout (off : Z) (fs : fields) : list (text * (Z * Z)) :=
  match fs with
  | [] => []
  | (name, size) :: fs =>
      let o := align_up off size in
      (name, (o, size)) :: layout (o + size) fs
  end.
Fixpoint end_offset (off : Z) (fs : fields) : Z :=
  match fs with
  | [] => off
  | (_, size) :: fs => end_offset (align_up off size + size) fs
  end.
Definition max_align (fs : fields) : Z := fold_right (fun f m => Z.max (snd f) m) 1 fs.
Definition sizeof (fs : fields) : Z := align_up (end_offset 0 fs) (max_align fs).

(** [value & (2**(8*n) - 1)] as [n] bytes in host order: what ctypes stores *)
Definition host_bytes (big : bool) (n : nat) (v : Z) : list byte :=
  let s := le_bytes n (v mod 2 ^ (8 * Z.of_nat n)) in if big then rev s else s.

(** [getattr(struct, name)] and [setattr(struct, name, value)] *)
Definition get_field (big : bool) (fs : fields) (s : list byte) (name : text) : res Z :=
  match dget text_eqb name (layout 0 fs) with
  | Some (off, size) => unpack_uint big (Z.to_nat size) (slice off (off + size) s)
  | None => Err EAttributeError
  end.
Definition set_field (big : bool) (fs : fields) (s : list byte) (name : text) (value : Z) : res (list byte) :=
  match dget text_eqb name (layout 0 fs) with
  | Some (off, size) =>
      Ok (slice 0 off s ++ host_bytes big (Z.to_nat size) value ++ skipn (Z.to_nat (off + size)) s)
  | None => Err EAttributeError   (* a Python attribute would be created; not reached *)
  end.
