(** * LogSpec: the vocabulary of the properties about error reports and the profiler. *)
From Coq Require Import ZArith List Ascii String Bool.
From Verif Require Import PyBase LogModel.
Import ListNotations.
Open Scope Z_scope.

Definition nl : ascii := "010"%char.
(** The text of a traceback: lines, each ended by a newline; the last one does not end with a space *)
Definition traceback_text (lines : list text) : text := List.concat (map (fun l => l ++ [nl]) lines).
Definition traceback_lines (lines : list text) : Prop :=
  Forall (fun l => ~ In nl l) lines /\ exists before line c, lines = before ++ [line ++ [c]] /\ is_space c = false.
(** No more space at the end *)
Definition trimmed (l t : text) : Prop := exists spaces, l = t ++ spaces /\ Forall (fun c => is_space c = true) spaces /\ forall t' c, t = t' ++ [c] -> is_space c = false.
(** Exceptions that are not errors *)
Definition ends_program (e : exn) : bool := match e with ESystemExit _ | EKeyboardInterrupt => true | _ => false end.
(** One level below, at least DEBUG; the level of a log function that does not exist is ERROR *)
Definition one_of_levels (l : Z) : Prop := l = 10 \/ l = 20 \/ l = 30 \/ l = 40.
