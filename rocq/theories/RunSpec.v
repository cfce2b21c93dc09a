(** * RunSpec: which files are tests. *)
From Coq Require Import ZArith List Ascii String Bool.
From Verif Require Import PyBase RunModel.
Import ListNotations.
Open Scope Z_scope.

(** [file_at tree path]: the tree has a file at this path (a list of names) *)
Inductive file_at : node -> list text -> Prop :=
| fa_here entries name : In (name, NFile) entries -> file_at (NDir entries) [name]
| fa_below entries name sub path : In (name, sub) entries -> file_at sub path -> file_at (NDir entries) (name :: path).
(** the name of a file of Python code to be looked at *)
Definition python_file (name : text) : Prop :=
  name = T "__init__.py" \/ exists base, name = base ++ T ".py" /\ hd_error name <> Some "."%char /\ hd_error name <> Some "_"%char.
(** one slash between a directory and a name in it; none behind the empty name or a final slash *)
Definition under (dir name : text) : text := dir ++ (if text_eqb (skipn (List.length dir - 1) dir) (T "/") || text_eqb dir [] then [] else T "/") ++ name.
Fixpoint full_path (dir : text) (path : list text) : text :=
  match path with [] => dir | name :: path => full_path (under dir name) path end.
(** no directory is a package *)
Fixpoint no_package (n : node) : bool :=
  match n with
  | NFile => true
  | NDir entries =>
      forallb (fun e : text * node => negb (text_eqb (fst e) (T "__init__.py")) && no_package (snd e)) entries
  end.
(** the name of the module of a file: the directories and the name without .py, separated by points *)
Definition module_of (path : list text) (modname : text) : Prop :=
  exists dirs base, path = dirs ++ [base ++ T ".py"] /\ modname = List.concat (map (fun d => d ++ T ".") dirs) ++ base.
