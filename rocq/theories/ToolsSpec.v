(** * ToolsSpec: specification vocabulary for flag display, ranges, paths. *)
From Coq Require Import ZArith List Ascii String Bool.
From Verif Require Import PyBase.
Import ListNotations.
Open Scope Z_scope.

(** Bit [b] belongs to one of the masks. *)
Definition covered (masks : list Z) (b : Z) : Prop := exists m, In m masks /\ Z.testbit m b = true.

(** [value] has a bit in [mask] that none of the [earlier] masks has. *)
Definition fresh_bit (value mask : Z) (earlier : list Z) : Prop :=
  exists b, 0 <= b /\ Z.testbit value b = true /\ Z.testbit mask b = true /\ ~ covered earlier b.

(** [named value earlier table names]: [names] are, in table order, exactly the
    names of the entries of [table] that explain a bit of [value] not explained by
    the masks [earlier] or by a previous entry. *)
Inductive named (value : Z) : list Z -> list (Z * text) -> list text -> Prop :=
| named_nil earlier : named value earlier [] []
| named_yes earlier mask name table names :
    fresh_bit value mask earlier -> named value (mask :: earlier) table names ->
    named value earlier ((mask, name) :: table) (name :: names)
| named_no earlier mask name table names :
    ~ fresh_bit value mask earlier -> named value (mask :: earlier) table names ->
    named value earlier ((mask, name) :: table) names.

(** [rest] consists of the bits of [value] that no mask of the table covers. *)
Definition unnamed (value : Z) (table : list (Z * text)) (rest : Z) : Prop :=
  forall b, 0 <= b ->
    (Z.testbit rest b = true <-> Z.testbit value b = true /\ ~ covered (map fst table) b).

(** The list a flag display must show: names, then the unexplained rest if any. *)
Definition flag_display (value : Z) (table : list (Z * text)) (shown : list text) : Prop :=
  exists names rest, named value [] table names /\ unnamed value table rest /\
    shown = names ++ (if rest =? 0 then [] else [str_int rest]).

(** A table of single-bit, pairwise different flags. *)
Definition is_flag (m : Z) : Prop := exists k, 0 <= k /\ m = 2 ^ k.
Definition simple_table (table : list (Z * text)) : Prop :=
  Forall is_flag (map fst table) /\ NoDup (map fst table).

(** The nearest value of an interval. *)
Definition nearest (lo v hi r : Z) : Prop :=
  lo <= r <= hi /\ forall x, lo <= x <= hi -> Z.abs (v - r) <= Z.abs (v - x).

(** Resolving path components one by one: [stack] is the current directory, innermost
    first. *)
Definition step_dir (stack : list text) (comp : text) : list text :=
  if text_eqb comp [] || text_eqb comp (T ".") then stack
  else if text_eqb comp (T "..") then tl stack
  else comp :: stack.
Definition walk (comps : list text) : list text := rev (fold_left step_dir comps []).

(** The file [name] of the directory [d]; "" is the current directory. *)
Definition in_directory (d name : text) : text :=
  match rev d with
  | [] => name
  | c :: _ => if Ascii.eqb c "/" then d ++ name else d ++ "/"%char :: name
  end.
(** POSIX: a path that starts with exactly two slashes is kept apart. *)
Definition root_of (cwd : text) : text :=
  match cwd with
  | a :: b :: rest =>
      if Ascii.eqb b "/" && negb (match rest with c :: _ => Ascii.eqb c "/" | [] => false end) then T "//" else T "/"
  | _ => T "/"
  end.
