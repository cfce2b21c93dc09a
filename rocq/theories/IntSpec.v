(** * IntSpec: what the integer helpers are supposed to compute.
    Nothing here refers to the model. *)
From Coq Require Import ZArith List Ascii String Bool.
From Verif Require Import PyBase.
Import ListNotations.
Open Scope Z_scope.

(** [u] is the unsigned [n]-bit representation of the integer [v]. *)
Definition unsigned_of (n v u : Z) : Prop :=
  0 <= u < 2 ^ n /\ exists k, v = u + k * 2 ^ n.
(** [s] is the signed (two's complement) [n]-bit representation of [v]. *)
Definition signed_of (n v s : Z) : Prop :=
  - 2 ^ (n - 1) <= s < 2 ^ (n - 1) /\ exists k, v = s + k * 2 ^ n.

(** Value of a lower-case hexadecimal digit: its position in the alphabet. *)
Definition hex_alphabet : text := T "0123456789abcdef".
Fixpoint position (c : ascii) (l : text) : option Z :=
  match l with
  | [] => None
  | x :: l => if Ascii.eqb c x then Some 0
              else match position c l with Some i => Some (i + 1) | None => None end
  end.

(** [hex_reads ds v]: the non-empty digit string [ds] denotes [v]. *)
Inductive hex_reads : text -> Z -> Prop :=
| hex_one c d : position c hex_alphabet = Some d -> hex_reads [c] d
| hex_more ds v c d : hex_reads ds v -> position c hex_alphabet = Some d ->
    hex_reads (ds ++ [c]) (16 * v + d).

(** The text "0x" followed by digits denoting [v]. *)
Definition hex_text (s : text) (v : Z) : Prop :=
  exists ds, s = T "0x" ++ ds /\ hex_reads ds v.

(** Most significant byte first. *)
Definition big_endian_value (bs : list byte) : Z :=
  fold_left (fun acc b => acc * 256 + b2z b) bs 0.
(** Value of a field stored as [bs] on a host of the given byte order. *)
Definition host_value (host_is_big : bool) (bs : list byte) : Z :=
  big_endian_value (if host_is_big then bs else rev bs).
