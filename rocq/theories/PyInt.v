(** * PyInt: the conversion int(text, base) of Python.  Nothing of /repo here.
    Base 2, 8, 10 or 16; white space around, a sign, single underscores between digits, a prefix 0b, 0o or 0x in base 2,
    8 or 16. *)
From Coq Require Import ZArith List Ascii String Bool.
From Verif Require Import PyBase.
Import ListNotations.
Open Scope Z_scope.

(** Digits with underscores; [prev]: the previous character is a digit *)
Fixpoint int_digits (b : Z) (s : text) (prev : bool) (acc : Z) : option Z :=
  match s with
  | [] => if prev then Some acc else None
  | c :: s =>
      if Ascii.eqb c "_"%char then (if prev then int_digits b s false acc else None)
      else match digit_val c with
           | Some d => if d <? b then int_digits b s true (acc * b + d) else None
           | None => None
           end
  end.
Definition base_letter (b : Z) (x : ascii) : bool :=
  ((b =? 16) && (Ascii.eqb x "x"%char || Ascii.eqb x "X"%char)) ||
  ((b =? 8) && (Ascii.eqb x "o"%char || Ascii.eqb x "O"%char)) ||
  ((b =? 2) && (Ascii.eqb x "b"%char || Ascii.eqb x "B"%char)).
Definition int_unsigned (b : Z) (s : text) : option Z :=
  match s with
  | z :: x :: r =>
      if Ascii.eqb z "0"%char && base_letter b x then
        match r with
        | u :: r' => int_digits b (if Ascii.eqb u "_"%char then r' else r) false 0
        | [] => None
        end
      else int_digits b s false 0
  | _ => int_digits b s false 0
  end.
(** int(s, b) *)
Definition py_int (b : Z) (s : text) : res Z :=
  let v := match strip s with
           | c :: r =>
               if Ascii.eqb c "-"%char then match int_unsigned b r with Some v => Some (- v) | None => None end
               else if Ascii.eqb c "+"%char then int_unsigned b r
               else int_unsigned b (c :: r)
           | [] => None
           end in
  match v with Some v => Ok v | None => Err EValueError end.
