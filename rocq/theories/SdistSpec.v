(** * SdistSpec: what a source distribution should contain. *)
From Coq Require Import ZArith List Ascii String.
From Verif Require Import PyBase.
Import ListNotations.
Open Scope char_scope.

(** A name and a pattern *)
Inductive matches : text -> text -> Prop :=
| m_end : matches [] []
| m_star p a s : ~ In "/" a -> matches p s -> matches ("*" :: p) (a ++ s)
| m_any p x s : x <> "/" -> matches p s -> matches ("?" :: p) (x :: s)
| m_char p c s : c <> "*" -> c <> "?" -> matches p s -> matches (c :: p) (c :: s).

(** A line "include pattern pattern ... # comment" *)
Inductive includes : text -> list text -> Prop :=
| includes_line words comment : Forall (fun w => w <> [] /\ Forall (fun c => is_space c = false /\ c <> "#") w) words ->
    (comment = [] \/ exists rest, comment = T " #" ++ rest) -> includes (T "include " ++ join (T " ") words ++ comment) words.

(** The file of a module, from the names of its packages and its own *)
Definition module_file (packages : list text) (name : text) : text := join (T "/") (packages ++ [name]) ++ T ".py".
(** Names without dot and slash *)
Definition plain (name : text) : Prop := name <> [] /\ ~ In "." name /\ ~ In "/" name.

(** Only of use in the repository *)
Definition repository_only : list text := [T ".github/workflows/build.yml"; T ".github/workflows/setup_test.yml"; T ".gitignore"].
(** Files of earlier versions *)
Definition gone : list text := [T "AUTHORS"; T "ChangeLog"; T "INSTALL"; T "README.cptrace"; T "TODO"; T "pyflakes.sh"; T "python3.0.patch"].
