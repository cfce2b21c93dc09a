(** * ExactSpec: vocabulary for the exact conditions of claims that do not always hold. *)
From Coq Require Import ZArith List Ascii String.
From Verif Require Import PyBase RegexModel MapModel.
Import ListNotations.

(** What is read from a file in text mode: a carriage return, with the newline behind it if there is one, becomes a newline *)
Inductive as_read : text -> text -> Prop :=
| r_end : as_read [] []
| r_crlf s t : as_read s t -> as_read (CR :: newline :: s) (newline :: t)
| r_cr s t : (forall r, s <> newline :: r) -> as_read s t -> as_read (CR :: s) (newline :: t)
| r_char c s t : c <> CR -> as_read s t -> as_read (c :: s) (c :: t).
