(** * DecodeSpec: the vocabulary of the properties about the binding of libdistorm64. *)
From Coq Require Import ZArith List Ascii String Bool.
From Verif Require Import PyBase DecodeModel.
Import ListNotations.
Open Scope Z_scope.

(** The instructions of a code: [one] gives the instruction at the beginning of a code, if there is one *)
Fixpoint instructions (one : Z -> list byte -> option dinst) (n : nat) (offset : Z) (code : list byte) : list dinst :=
  match n, code with
  | O, _ | _, [] => []
  | S n, _ => match one offset code with
              | None => []
              | Some i => i :: instructions one n (offset + di_size i) (skipn (Z.to_nat (di_size i)) code)
              end
  end.
Definition all_instructions (one : Z -> list byte -> option dinst) (offset : Z) (code : list byte) : list dinst := instructions one (List.length code) offset code.
(** An instruction is at its address and has at least one byte of the code *)
Definition sensible (one : Z -> list byte -> option dinst) : Prop :=
  forall offset code i, one offset code = Some i -> di_offset i = offset /\ 1 <= di_size i <= zlen code.
(** The library gives the instructions, not more than asked for at once; it says that it lacks memory only when it gave some *)
Definition decodes (internal_decode : Z -> list byte -> Z -> Z * list dinst) (one : Z -> list byte -> option dinst) : Prop :=
  forall offset code maximum, 0 < maximum ->
    snd (internal_decode offset code maximum) = firstn (Z.to_nat maximum) (all_instructions one offset code) /\
    fst (internal_decode offset code maximum) <> DECRES_INPUTERR /\
    (snd (internal_decode offset code maximum) = [] -> fst (internal_decode offset code maximum) <> DECRES_MEMORYERR).
(** Instructions that follow each other from [offset] *)
Fixpoint consecutive (offset : Z) (l : list dinst) : Prop :=
  match l with
  | [] => True
  | i :: l => di_offset i = offset /\ consecutive (offset + di_size i) l
  end.
