(** * CodeSpec: the instructions of a program, and what the disassembly and the dump of its code should be. *)
From Coq Require Import ZArith List Ascii String Bool.
From Verif Require Import PyBase Platform TraceModel TraceSpec.
Import ListNotations.
Open Scope Z_scope.

(** The code of a program: its bytes *)
Fixpoint from (c : Z -> byte) (a : Z) (n : nat) : list byte :=
  match n with
  | O => []
  | S n => c a :: from c (a + 1) n
  end.
(** An instruction set: [one a bytes] is the instruction that begins at the address [a] with these bytes, if they are enough.
    An instruction is made of its own bytes only. *)
Definition isa : Type := Z -> list byte -> option instruction.
Definition well_formed (one : isa) : Prop := forall a bytes i, one a bytes = Some i ->
  in_address i = a /\ 1 <= in_size i <= zlen bytes /\ forall more, one a (firstn (Z.to_nat (in_size i)) bytes ++ more) = Some i.
(** A disassembler for it (such as distorm): it gives the instructions one after the other; what it gives for other bytes is not
    known, but it does not go beyond the bytes it was given. *)
Definition disassembles (one : isa) (decode : Z -> list byte -> list instruction) : Prop :=
  (forall a code i, one a code = Some i -> decode a code = i :: decode (a + in_size i) (skipn (Z.to_nat (in_size i)) code)) /\
  (forall a code i rest, decode a code = i :: rest -> in_size i <= zlen code).

Section Program.
  Context (one : isa) (c : Z -> byte).
  Definition is_at (a : Z) (i : instruction) : Prop := exists n, one a (from c a n) = Some i.
  (** One after the other *)
  Inductive are_at : Z -> list instruction -> Prop :=
  | are_at_nil a : are_at a []
  | are_at_cons a i l : is_at a i -> are_at (a + in_size i) l -> are_at a (i :: l).
  Definition total (l : list instruction) : Z := fold_right (fun i s => in_size i + s) 0 l.
  (** The [n] instructions from [a] on, or those up to the first that reaches the address [stop] *)
  Definition reaches (stop : option Z) (a : Z) : Prop := exists s, stop = Some s /\ s <= a.
  Inductive listing (stop : option Z) : nat -> Z -> list instruction -> Prop :=
  | listing_full a : listing stop 0 a []
  | listing_last n a i : is_at a i -> reaches stop (a + in_size i) -> listing stop (S n) a [i]
  | listing_next n a i l : is_at a i -> ~ reaches stop (a + in_size i) -> listing stop n (a + in_size i) l -> listing stop (S n) a (i :: l).

  (** The memory [m] of the program while it has breakpoints (the address and the bytes that were there) *)
  Definition covered (bps : list (Z * list byte)) (x : Z) : Prop := exists b old, dget Z.eqb b bps = Some old /\ b <= x < b + zlen old.
  Definition has_breakpoints (m : Z -> byte) (bps : list (Z * list byte)) : Prop :=
    (forall b old, dget Z.eqb b bps = Some old -> old = from c b (List.length old)) /\ (forall x, ~ covered bps x -> m x = c x).
  (** The bytes of [i] are found: [max] bytes are read, which no breakpoint has changed; at a breakpoint the replaced bytes are used *)
  Definition legible (max : Z) (bps : list (Z * list byte)) (i : instruction) : Prop :=
    match dget Z.eqb (in_address i) bps with
    | Some old => in_size i <= zlen old
    | None => in_size i <= max /\ forall x, in_address i <= x < in_address i + in_size i -> ~ covered bps x
    end.
End Program.
(** Reading the memory works. *)
Definition readable (m : Z -> byte) (read : Z -> Z -> res (list byte)) : Prop := forall a n, 0 <= n -> read a n = Ok (from m a (Z.to_nat n)).
