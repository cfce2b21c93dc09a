(** * RegSpec: what CPU registers are, independently of the code. *)
From Coq Require Import ZArith List Ascii String Bool.
From Verif Require Import PyBase Platform IntSpec StructModel RegModel.
Import ListNotations.
Open Scope Z_scope.

(** The saved registers [s] form a complete structure. *)
Definition whole (p : platform) (s : list byte) : Prop := zlen s = sizeof (register_fields p).
(** In the saved registers [s], the register [name] (occupying [size] bytes) holds [v]. *)
Definition reg_holds (p : platform) (s : list byte) (name : text) (size v : Z) : Prop :=
  exists off, In (name, (off, size)) (layout 0 (register_fields p)) /\
    host_value (p_bigendian p) (firstn (Z.to_nat size) (skipn (Z.to_nat off) s)) = v.

(** Bits [lo .. lo+w-1] of [v]. *)
Definition bits (v lo w : Z) : Z := v / 2 ^ lo mod 2 ^ w.

(** Intel manual: part of register [main], lowest bit, width. *)
Definition main_name (p : platform) (c : ascii) : text :=
  match p_cpu p with X86_64 => T "r" ++ [c] ++ T "x" | _ => T "e" ++ [c] ++ T "x" end.
Definition low_byte p c := ([c] ++ T "l", (main_name p c, 0, 8)).
Definition high_byte p c := ([c] ++ T "h", (main_name p c, 8, 8)).
Definition low_word p c := ([c] ++ T "x", (main_name p c, 0, 16)).
Definition low_dword p c := (T "e" ++ [c] ++ T "x", (main_name p c, 0, 32)).
Definition flag (n : text) (bit : Z) := (n, (T "eflags", bit, 1)).
Definition intel_flags : list (text * (text * Z * Z)) :=
  [flag (T "cf") 0; flag (T "pf") 2; flag (T "af") 4; flag (T "zf") 6; flag (T "sf") 7;
   flag (T "tf") 8; flag (T "if") 9; flag (T "df") 10; flag (T "of") 11].
Definition intel_parts (p : platform) : list (text * (text * Z * Z)) :=
  flat_map (fun c => [low_byte p c; high_byte p c; low_word p c]) (T "abcd") ++ intel_flags.

(** Program counter, stack pointer, frame pointer of each architecture (ABI documents). *)
Definition arch_pc (c : cpu) : option text :=
  match c with
  | PPC32 | PPC64 => Some (T "nip") | ARM32 => Some (T "r15") | AARCH64 | RISCV32 | RISCV64 => Some (T "pc")
  | X86_64 => Some (T "rip") | I386 => Some (T "eip") | OtherCPU => None
  end.
Definition arch_sp (c : cpu) : option text :=
  match c with
  | PPC32 | PPC64 => Some (T "gpr1") | ARM32 => Some (T "r13") | AARCH64 | RISCV32 | RISCV64 => Some (T "sp")
  | X86_64 => Some (T "rsp") | I386 => Some (T "esp") | OtherCPU => None
  end.
Definition arch_fp (c : cpu) : option text :=
  match c with
  | ARM32 => Some (T "r11") | AARCH64 => Some (T "r29") | RISCV32 | RISCV64 => Some (T "s0")
  | X86_64 => Some (T "rbp") | I386 => Some (T "ebp") | _ => None
  end.
(** The Python process has the machine's word size. *)
Definition native (p : platform) : Prop :=
  p_64bits p = match p_cpu p with PPC64 | X86_64 | AARCH64 | RISCV64 => true | _ => false end.
