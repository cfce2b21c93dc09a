(** * ExprSpec: arithmetic expressions, how they are written and what they denote.  Independent of the model (only the type of the results of eval() is that of PyEval). *)
From Coq Require Import ZArith List Ascii String Bool.
From Verif Require Import PyBase PyEval.
Import ListNotations.
Open Scope Z_scope.

Inductive binop : Type := BLt | BGt | BAnd | BShl | BShr | BAdd | BSub | BMul | BDiv | BPow.
Inductive expr (A : Type) : Type :=
| Leaf (a : A)
| Empty                                 (* the empty tuple *)
| Paren (e : expr A)                    (* parentheses that may be unneeded *)
| Sign (minus : bool) (e : expr A)
| Bin (o : binop) (a b : expr A).
Arguments Leaf {A}. Arguments Empty {A}. Arguments Paren {A}. Arguments Sign {A}. Arguments Bin {A}.

(** Precedence of the operators of Python, and of their operands; the sign has 5 *)
Definition prec (o : binop) : nat := match o with BLt | BGt => 0 | BAnd => 1 | BShl | BShr => 2 | BAdd | BSub => 3 | BMul | BDiv => 4 | BPow => 6 end.
Definition left_prec (o : binop) : nat := match o with BPow => 7 | _ => prec o end.
Definition right_prec (o : binop) : nat := match o with BPow => 5 | _ => S (prec o) end.
(** The operators as the user writes them *)
Definition op_text (o : binop) : text :=
  T match o with BLt => "<" | BGt => ">" | BAnd => "&" | BShl => "<<" | BShr => ">>" | BAdd => "+" | BSub => "-" | BMul => "*" | BDiv => "/" | BPow => "**" end.
Definition sign_text (minus : bool) : text := T (if minus then "-" else "+").
(** An expression with parentheses where they are needed *)
Definition parens (b : bool) (t : text) : text := if b then T "(" ++ t ++ T ")" else t.
Fixpoint print {A} (leaf : A -> text) (k : nat) (e : expr A) : text :=
  match e with
  | Leaf a => leaf a
  | Empty => T "()"
  | Paren a => parens true (print leaf 0 a)
  | Sign m a => parens (Nat.ltb 5 k) (sign_text m ++ print leaf 5 a)
  | Bin o a b => parens (Nat.ltb (prec o) k) (print leaf (left_prec o) a ++ op_text o ++ print leaf (right_prec o) b)
  end.

(** The values of Python: integers, truth values (True is 1 and False is 0 in a calculation), the empty tuple *)
Inductive val : Type := Int (z : Z) | Bool (b : bool) | Tup.
Definition number (v : val) : res Z := match v with Int z => Ok z | Bool true => Ok 1 | Bool false => Ok 0 | Tup => Err ETypeError end.
(** Operations on numbers: / rounds down; a negative power is a fraction, outside the model *)
Definition arith (o : binop) (x y : Z) : res val :=
  match o with
  | BLt => Ok (Bool (x <? y))
  | BGt => Ok (Bool (y <? x))
  | BAnd => Ok (Int (Z.land x y))
  | BShl => if y <? 0 then Err EValueError else Ok (Int (x * 2 ^ y))
  | BShr => if y <? 0 then Err EValueError else Ok (Int (x / 2 ^ y))
  | BAdd => Ok (Int (x + y))
  | BSub => Ok (Int (x - y))
  | BMul => Ok (Int (x * y))
  | BDiv => if y =? 0 then Err EZeroDivisionError else Ok (Int (x / y))
  | BPow => if 0 <=? y then Ok (Int (x ^ y)) else if x =? 0 then Err EZeroDivisionError else Err EUndefined
  end.
(** Operations on values: & of two truth values is one; empty tuples are added, repeated and compared; other
    operations on a tuple are errors *)
Definition bin_value (o : binop) (a b : val) : res val :=
  match o, a, b with
  | BAnd, Bool x, Bool y => Ok (Bool (x && y))
  | BAdd, Tup, Tup => Ok Tup
  | BMul, Tup, (Int _ | Bool _) | BMul, (Int _ | Bool _), Tup => Ok Tup
  | BLt, Tup, Tup | BGt, Tup, Tup => Ok (Bool false)
  | _, _, _ => do x <- number a; do y <- number b; arith o x y
  end.
Definition compares (o : binop) : bool := match o with BLt | BGt => true | _ => false end.
(** Its value; a < b < c is "a < b and b < c" *)
Fixpoint value (e : expr Z) : res val :=
  match e with
  | Leaf z => Ok (Int z)
  | Empty => Ok Tup
  | Paren a => value a
  | Sign m a => do v <- value a; do x <- number v; Ok (Int (if m then - x else x))
  | Bin o a b =>
      match a with
      | Bin o' _ middle =>
          if compares o && compares o' then
            do first <- value a;
            match first with
            | Bool false => Ok (Bool false)
            | _ => do x <- value middle; do y <- value b; bin_value o x y
            end
          else do x <- value a; do y <- value b; bin_value o x y
      | _ => do x <- value a; do y <- value b; bin_value o x y
      end
  end.
(** As results of eval() *)
Definition py (v : val) : pyval := match v with Int z => VInt z | Bool b => VBool b | Tup => VTuple end.
Fixpoint map_leaves {A B} (f : A -> B) (e : expr A) : expr B :=
  match e with
  | Leaf a => Leaf (f a)
  | Empty => Empty
  | Paren a => Paren (map_leaves f a)
  | Sign m a => Sign m (map_leaves f a)
  | Bin o a b => Bin o (map_leaves f a) (map_leaves f b)
  end.
Fixpoint all_leaves {A} (P : A -> Prop) (e : expr A) : Prop :=
  match e with
  | Leaf a => P a
  | Empty => True
  | Paren a | Sign _ a => all_leaves P a
  | Bin _ a b => all_leaves P a /\ all_leaves P b
  end.

(** What an expression contains: decimal numbers, hexadecimal numbers and registers *)
Inductive literal : Type := Dec (n : Z) | Hex (n : Z) | Reg (name : text).
Definition literal_text (l : literal) : text :=
  match l with Dec n => digits 10 n | Hex n => T "0x" ++ digits 16 n | Reg name => name end.
(** In gdb registers have a sign, and 0x may be left out when the number contains a letter. *)
Inductive gdb_literal : Type := GLit (l : literal) | GBare (n : Z).
Definition gdb_text (l : gdb_literal) : text :=
  match l with GLit (Reg name) => T "$" ++ name | GLit l => literal_text l | GBare n => digits 16 n end.
(** [reg]: the registers *)
Definition literal_value (reg : text -> Z) (l : literal) : Z := match l with Dec n | Hex n => n | Reg name => reg name end.
Definition gdb_value (reg : text -> Z) (l : gdb_literal) : Z := match l with GLit l => literal_value reg l | GBare n => n end.
(** A register name: lower case letters, then letters, digits and underscores, at least two characters *)
Definition reg_name (name : text) : Prop :=
  exists a b, name = a ++ b /\ a <> [] /\ b <> [] /\ Forall (fun c => is_lower c = true) a /\
    Forall (fun c => is_lower c || is_digit c || Ascii.eqb c "_"%char = true) b.
(** Safe texts: digits, parentheses, operators *)
Definition safe_text (s : text) : Prop := Forall (fun c => is_digit c = true \/ In c (T "()<>+*/&-")) s.
(** Well written literals *)
Definition literal_ok (l : literal) : Prop := match l with Dec n | Hex n => 0 <= n | Reg name => reg_name name end.
Definition gdb_ok (l : gdb_literal) : Prop :=
  match l with GLit l => literal_ok l | GBare n => 0 <= n /\ existsb is_lower (digits 16 n) = true end.
(** The name of the register does not contain 0x, that would be read as a number. *)
Definition no_0x (name : text) : Prop := forall a b, name <> a ++ T "0x" ++ b.
Definition names_ok (l : literal) : Prop := match l with Reg name => no_0x name | _ => True end.
(** [getreg] reads the register of the name, its value is [reg name]. *)
Definition known (getreg : text -> res Z) (reg : text -> Z) (l : literal) : Prop := match l with Reg name => getreg name = Ok (reg name) /\ 0 <= reg name | _ => True end.
Definition gdb_known (getreg : text -> res Z) (reg : text -> Z) (l : gdb_literal) : Prop := match l with GLit l => known getreg reg l | GBare _ => True end.
