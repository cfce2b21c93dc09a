(** * FmtModel: the %-formatting of Python, as far as it raises exceptions: s % args in Objects/unicodeobject.c, unicode_format_arg_parse(), unicode_format_getnextarg(),
    unicode_format_arg_format() and PyUnicode_Format().  The text of the result is not modelled here. *)
From Coq Require Import ZArith List Ascii String Bool.
From Verif Require Import PyBase.
Import ListNotations.

(** ** Arguments *)

(** What a conversion asks about a value: is it an int; a float; a str of one character; anything else.  Tuples and mappings as the right operand of % are treated by
    [percent]; as items of a tuple they are [VOther]. *)
Inductive value : Type := VInt | VFloat | VChar | VOther.
(** The right operand of %: a tuple gives its items, any other value (not a mapping) is the only item *)
Inductive operand : Type := Tuple (l : list value) | One (v : value).
Definition items (o : operand) : list value := match o with Tuple l => l | One v => [v] end.

(** ** Conversions *)

Definition one_of (s : string) (c : ascii) : bool := existsb (Ascii.eqb c) (T s).
(** Numbers too large for %c are left out. *)
Definition accepts (c : ascii) (v : value) : res unit :=
  if one_of "sra" c then Ok tt
  else if one_of "diu" c then match v with VInt | VFloat => Ok tt | _ => Err ETypeError end
  else if one_of "oxX" c then match v with VInt => Ok tt | _ => Err ETypeError end
  else if one_of "eEfFgG" c then match v with VInt | VFloat => Ok tt | _ => Err ETypeError end
  else if one_of "c" c then match v with VInt | VChar => Ok tt | _ => Err ETypeError end
  else Err EValueError.

(** Where the parser is: in the text, or in a conversion: behind the '%', among its flags, in its width, behind its width, behind the point, in its precision, behind its precision, behind
    the length modifier *)
Inductive state : Type := SText | SBegin | SFlags | SWidth | SWidthDone | SPoint | SPrec | SPrecDone | SDone.
(** What a character does: it is part of the text or of the conversion, takes an int from the arguments (a star), begins the name of a key, or is the letter of the conversion *)
Inductive act : Type := Go (s : state) | Star (s : state) | Key | Letter.
Definition behind_prec (c : ascii) : act := if one_of "hlL" c then Go SDone else Letter.
Definition behind_width (c : ascii) : act := if Ascii.eqb c "." then Go SPoint else behind_prec c.
Definition among_flags (c : ascii) : act :=
  if one_of "-+ #0" c then Go SFlags else if Ascii.eqb c "*" then Star SWidthDone else if is_digit c then Go SWidth else behind_width c.
(** %% gives '%' only without anything in between (as in Python 3.11; older versions allow flags and a width) *)
Definition action (s : state) (c : ascii) : act :=
  match s with
  | SText => if Ascii.eqb c "%" then Go SBegin else Go SText
  | SBegin => if Ascii.eqb c "%" then Go SText else if Ascii.eqb c "(" then Key else among_flags c
  | SFlags => among_flags c
  | SWidth => if is_digit c then Go SWidth else behind_width c
  | SWidthDone => behind_width c
  | SPoint => if Ascii.eqb c "*" then Star SPrecDone else if is_digit c then Go SPrec else behind_prec c
  | SPrec => if is_digit c then Go SPrec else behind_prec c
  | SPrecDone => behind_prec c
  | SDone => Letter
  end.

(** A key needs a mapping; there is none here: TypeError.  The check of the letter comes after the argument is taken. *)
Fixpoint format (st : state) (s : text) (args : list value) : res unit :=
  match s with
  | [] => match st with SText => match args with [] => Ok tt | _ => Err ETypeError end | _ => Err EValueError end
  | c :: s =>
    match action st c with
    | Go st => format st s args
    | Key => Err ETypeError
    | Star st => match args with VInt :: args => format st s args | _ => Err ETypeError end
    | Letter => match args with v :: args => do _ <- accepts c v; format SText s args | [] => Err ETypeError end
    end
  end.
(** s % o *)
Definition percent (s : text) (o : operand) : res unit := format SText s (items o).

(** ** The formats of the project *)

(** What the code knows about an argument: nothing, or that it is an int *)
Inductive known : Type := Any | Int.
Definition fits (k : known) (v : value) : Prop := match k with Any => True | Int => v = VInt end.
(** The formats of a file: line, format, what is known about the items of its right operand, and whether it is written as a tuple.  Without the tuple, the operand is
    assumed not to be one. *)
Record use : Type := U { u_line : Z; u_format : text; u_tuple : bool; u_args : list known }.
(** ptrace/tools.py 13, 16: the format that "%% %us" % width gives *)
Definition name_format (width : Z) : text := T "% " ++ digits 10 width ++ T "s".
(** ptrace/process_tools.py 67: '%s=%r' % tuple(item.split('=', 1)) *)
Definition env_format (item : text) : res unit :=
  percent (T "%s=%r") (Tuple (match split1 "=" item with Some _ => [VOther; VOther] | None => [VOther] end)).
