(** * CmdSpec: vocabulary for statements about command lines. *)
From Coq Require Import ZArith List Ascii String Bool.
From Verif Require Import PyBase.
Import ListNotations.
Open Scope Z_scope.

(** An option given in full: without a value, with a number, with a text *)
Inductive item : Type := IFlag (name : text) | IInt (name : text) (n : Z) | IStr (name : text) (t : text).
Definition render (i : item) : list text :=
  match i with
  | IFlag name => [name]
  | IInt name n => [name; str_int n]
  | IStr name t => [name; t]
  end.
Definition words (s : string) : list text := split_char " "%char (T s).
Definition one_of (s : string) (name : text) : bool := existsb (text_eqb name) (words s).
(** Is a flag with one of these names among the options? *)
Definition given (names : string) (items : list item) : bool :=
  existsb (fun i => match i with IFlag name => one_of names name | _ => false end) items.
(** The last number, the last text given with one of these names *)
Fixpoint last_int (names : string) (items : list item) (default : option Z) : option Z :=
  match items with
  | [] => default
  | IInt name n :: items => last_int names items (if one_of names name then Some n else default)
  | _ :: items => last_int names items default
  end.
Fixpoint last_str (names : string) (items : list item) (default : option text) : option text :=
  match items with
  | [] => default
  | IStr name t :: items => last_str names items (if one_of names name then Some t else default)
  | _ :: items => last_str names items default
  end.

(** The options of strace.py and gdb.py, as their usage shows them *)
Definition gdb_flags : string := "--fork -f --trace-exec --trace-clone --no-stdout --quiet -q --verbose -v --debug".
Definition strace_flags : string :=
  "--enter --profiler --type --name --raw-socketcall --address --socket --filename --show-pid --list-syscalls --show-ip -i --fork -f --trace-exec --trace-clone --no-stdout --quiet -q --verbose -v --debug".
Definition strace_ints : string := "--pid -p --string-length -s --array-count".
Definition strace_strs : string := "--output -o --ignore-regex --syscalls -e".
Definition gdb_ints : string := "--pid -p".
Definition strace_item (i : item) : Prop :=
  match i with
  | IFlag name => one_of strace_flags name = true
  | IInt name _ => one_of strace_ints name = true
  | IStr name _ => one_of strace_strs name = true
  end.
Definition gdb_item (i : item) : Prop :=
  match i with
  | IFlag name => one_of gdb_flags name = true
  | IInt name _ => one_of gdb_ints name = true
  | IStr _ _ => False
  end.
(** Not an option: it does not start with a dash, or it is a dash *)
Definition plain_arg (t : text) : Prop := t = T "-" \/ forall r, t <> "-"%char :: r.
(** All names, and the letters of the short ones *)
Definition strace_names : string := "-h --help " ++ strace_flags ++ " " ++ strace_ints ++ " " ++ strace_strs.
Definition gdb_names : string := "-h --help " ++ gdb_flags ++ " " ++ gdb_ints.
