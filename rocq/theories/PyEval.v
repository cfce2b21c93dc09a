(** * PyEval: the built-in function eval() of Python 3 on texts made of digits, parentheses and the characters
    + - * / & < >.  Nothing of /repo here.
    Simplifications: no limits of resources (depth of parentheses, size of numbers); an operation whose result is
    a float (a negative power, the true division) is [EUndefined], outside the model. *)
From Coq Require Import ZArith List Ascii String Bool.
From Verif Require Import PyBase.
Import ListNotations.
Open Scope Z_scope.

(** The values: without a comma the only tuple is the empty one. *)
Inductive pyval : Type := VInt (z : Z) | VBool (b : bool) | VTuple.

(** ** Tokens *)
Inductive op : Type := OLt | OGt | OAnd | OShl | OShr | OAdd | OSub | OMul | OFloorDiv | ODiv | OPow.
Inductive token : Type := TNum (z : Z) | TOp (o : op) | TLpar | TRpar.
(** A number: no zero before other digits *)
Definition number_token (ds : text) : res (list token) :=
  match ds with
  | [] => Ok []
  | c :: r => match read_uint 10 ds with
              | Some v => if Ascii.eqb c "0"%char && negb (v =? 0) then Err ESyntaxError else Ok [TNum v]
              | None => Err ESyntaxError
              end
  end.
(** [ds]: the digits just read *)
Fixpoint lex (ds : text) (s : text) : res (list token) :=
  let emit t r := do n <- number_token ds; do l <- r; Ok (n ++ t :: l) in
  match s with
  | [] => number_token ds
  | c :: s =>
      if is_digit c then lex (ds ++ [c]) s
      else if Ascii.eqb c "("%char then emit TLpar (lex [] s)
      else if Ascii.eqb c ")"%char then emit TRpar (lex [] s)
      else if Ascii.eqb c "+"%char then emit (TOp OAdd) (lex [] s)
      else if Ascii.eqb c "-"%char then emit (TOp OSub) (lex [] s)
      else if Ascii.eqb c "&"%char then emit (TOp OAnd) (lex [] s)
      else
        let double one two :=
          match s with
          | d :: s' => if Ascii.eqb d c then emit (TOp two) (lex [] s') else emit (TOp one) (lex [] s)
          | [] => emit (TOp one) (lex [] s)
          end in
        if Ascii.eqb c "*"%char then double OMul OPow
        else if Ascii.eqb c "/"%char then double ODiv OFloorDiv
        else if Ascii.eqb c "<"%char then double OLt OShl
        else if Ascii.eqb c ">"%char then double OGt OShr
        else Err EUndefined
  end.

(** ** Syntax *)
Inductive ast : Type :=
| ANum (z : Z)
| ATuple
| AParen (a : ast)
| AUnary (minus : bool) (a : ast)
| ABin (o : op) (a b : ast)        (* for < and >: a chain of comparisons when [a] is one *)
| ACall (f a : ast)
| ACall0 (f : ast).
Definition level (o : op) : nat :=
  match o with OLt | OGt => 0 | OAnd => 1 | OShl | OShr => 2 | OAdd | OSub => 3 | OMul | OFloorDiv | ODiv => 4 | OPow => 6 end.
(** What to parse: an expression of a level (0 comparison, 1 &, 2 shift, 3 sum, 4 product, 5 sign, 6 power, 7 call),
    the rest of a chain of binary operators, or the calls after a primary expression *)
Inductive mode : Type := Level (n : nat) | Loop (n : nat) (a : ast) | Calls (a : ast).
Fixpoint parse (fuel : nat) (m : mode) (ts : list token) : res (ast * list token) :=
  match fuel with
  | O => Err EDiverges
  | S fuel =>
      match m with
      | Loop n a =>
          match ts with
          | TOp o :: r =>
              if Nat.eqb (level o) n then
                do x <- parse fuel (Level (S n)) r;
                parse fuel (Loop n (ABin o a (fst x))) (snd x)
              else Ok (a, ts)
          | _ => Ok (a, ts)
          end
      | Calls a =>
          match ts with
          | TLpar :: TRpar :: r => parse fuel (Calls (ACall0 a)) r
          | TLpar :: r =>
              (* f(x), f( *x), f( **x) *)
              let r := match r with TOp OMul :: r' => r' | TOp OPow :: r' => r' | _ => r end in
              do x <- parse fuel (Level 0) r;
              match snd x with
              | TRpar :: r => parse fuel (Calls (ACall a (fst x))) r
              | _ => Err ESyntaxError
              end
          | _ => Ok (a, ts)
          end
      | Level 5 =>
          match ts with
          | TOp OAdd :: r => do x <- parse fuel (Level 5) r; Ok (AUnary false (fst x), snd x)
          | TOp OSub :: r => do x <- parse fuel (Level 5) r; Ok (AUnary true (fst x), snd x)
          | _ => parse fuel (Level 6) ts
          end
      | Level 6 =>
          do x <- parse fuel (Level 7) ts;
          match snd x with
          | TOp OPow :: r => do y <- parse fuel (Level 5) r; Ok (ABin OPow (fst x) (fst y), snd y)
          | _ => Ok x
          end
      | Level 7 =>
          match ts with
          | TNum z :: r => parse fuel (Calls (ANum z)) r
          | TLpar :: TRpar :: r => parse fuel (Calls ATuple) r
          | TLpar :: r =>
              do x <- parse fuel (Level 0) r;
              match snd x with
              | TRpar :: r => parse fuel (Calls (AParen (fst x))) r
              | _ => Err ESyntaxError
              end
          | _ => Err ESyntaxError
          end
      | Level n =>
          do x <- parse fuel (Level (S n)) ts;
          parse fuel (Loop n (fst x)) (snd x)
      end
  end.

(** ** Evaluation *)
Definition as_int (v : pyval) : option Z :=
  match v with VInt z => Some z | VBool b => Some (if b then 1 else 0) | VTuple => None end.
Definition int_op (o : op) (x y : Z) : res pyval :=
  match o with
  | OLt => Ok (VBool (x <? y))
  | OGt => Ok (VBool (y <? x))
  | OAnd => Ok (VInt (Z.land x y))
  | OShl => if y <? 0 then Err EValueError else Ok (VInt (Z.shiftl x y))
  | OShr => if y <? 0 then Err EValueError else Ok (VInt (Z.shiftr x y))
  | OAdd => Ok (VInt (x + y))
  | OSub => Ok (VInt (x - y))
  | OMul => Ok (VInt (x * y))
  | OFloorDiv => if y =? 0 then Err EZeroDivisionError else Ok (VInt (x / y))
  | ODiv => if y =? 0 then Err EZeroDivisionError else Err EUndefined
  | OPow => if 0 <=? y then Ok (VInt (x ^ y)) else if x =? 0 then Err EZeroDivisionError else Err EUndefined
  end.
Definition apply_op (o : op) (a b : pyval) : res pyval :=
  match o, a, b with
  | OAnd, VBool x, VBool y => Ok (VBool (x && y))
  | OAdd, VTuple, VTuple => Ok VTuple
  | OMul, VTuple, VTuple => Err ETypeError
  | OMul, VTuple, _ | OMul, _, VTuple => Ok VTuple
  | OLt, VTuple, VTuple | OGt, VTuple, VTuple => Ok (VBool false)
  | _, _, _ => match as_int a, as_int b with
               | Some x, Some y => int_op o x y
               | _, _ => Err ETypeError
               end
  end.
Fixpoint eval_ast (a : ast) : res pyval :=
  match a with
  | ANum z => Ok (VInt z)
  | ATuple => Ok VTuple
  | AParen a => eval_ast a
  | AUnary minus a =>
      do v <- eval_ast a;
      match as_int v with
      | Some z => Ok (VInt (if minus then - z else z))
      | None => Err ETypeError
      end
  | ABin o a b =>
      let simple := do x <- eval_ast a; do y <- eval_ast b; apply_op o x y in
      if Nat.eqb (level o) 0 then
        match a with
        | ABin o' _ m =>
            if Nat.eqb (level o') 0 then
              do c <- eval_ast a;
              match c with
              | VBool false => Ok (VBool false)
              | _ => do x <- eval_ast m; do y <- eval_ast b; apply_op o x y
              end
            else simple
        | _ => simple
        end
      else simple
  | ACall f a => do _ <- eval_ast f; do _ <- eval_ast a; Err ETypeError
  | ACall0 f => do _ <- eval_ast f; Err ETypeError
  end.
Definition parse_text (s : text) : res ast :=
  do ts <- lex [] s;
  do x <- parse (S (List.length ts) * 20) (Level 0) ts;
  match snd x with [] => Ok (fst x) | _ => Err ESyntaxError end.
(** eval(s) *)
Definition py_eval (s : text) : res pyval := do a <- parse_text s; eval_ast a.
