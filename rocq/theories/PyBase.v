(** * PyBase: the fragment of the Python runtime the modelled code relies on.

    Nothing in this file models code of /repo; it gives Gallina counterparts of
    the built-in types and string functions used there.  Simplification: a Python
    [str] is a list of code points 0..255 and [bytes] a list of bytes; both are
    [list ascii]. *)
From Coq Require Import ZArith List Ascii String Bool Lia.
Import ListNotations.
Open Scope Z_scope.

Notation text := (list ascii).
Notation byte := ascii.

(** String literals. *)
Definition T (s : string) : text := list_ascii_of_string s.
Arguments T s%string.

(** Bytes as numbers. *)
Definition b2z (b : byte) : Z := Z.of_N (N_of_ascii b).
Definition z2b (z : Z) : byte := ascii_of_N (Z.to_N (z mod 256)).

(** Exceptions that can leave the modelled functions.  [EOSError] carries the
    errno, [EPtraceError] the optional errno of ptrace/error.py:PtraceError. *)
Inductive exn : Type :=
| ETypeError | EValueError | EKeyError | EIndexError | EOverflowError
| EZeroDivisionError | EStructError | ESyntaxError | ENameError
| EAttributeError | EUnboundLocalError | ENotImplementedError
| EUnicodeError | EKeyboardInterrupt | EStopIteration
| EOSError (errno : Z)
| EPtraceError (errno : option Z)
| EProcessError | EDebuggerError | EChildError
| EProcError | EImportError | EAssertionError
| ESystemExit (code : Z)   (* exit(): not an Exception *)
| EUndefined   (* C-level access outside a buffer: no defined outcome *)
| EDiverges.   (* the Python code does not terminate *)

Inductive res (A : Type) : Type :=
| Ok (a : A)
| Err (e : exn).
Arguments Ok {A} a.
Arguments Err {A} e.

Definition bind {A B} (m : res A) (f : A -> res B) : res B :=
  match m with Ok a => f a | Err e => Err e end.
Notation "'do' x <- m ; f" := (bind m (fun x => f))
  (at level 200, x pattern, m at level 100, f at level 200, right associativity).

Definition is_ok {A} (m : res A) : bool :=
  match m with Ok _ => true | Err _ => false end.

Fixpoint mapM {A B} (f : A -> res B) (l : list A) : res (list B) :=
  match l with
  | [] => Ok []
  | x :: l => do y <- f x; do ys <- mapM f l; Ok (y :: ys)
  end.

(** ** Numbers in text *)

Definition digit_char (d : Z) : ascii :=
  if d <? 10 then z2b (48 + d) else z2b (87 + d).

(** Value of one digit character, upper and lower case. *)
Definition digit_val (c : ascii) : option Z :=
  let n := b2z c in
  if (48 <=? n) && (n <=? 57) then Some (n - 48)
  else if (97 <=? n) && (n <=? 122) then Some (n - 87)
  else if (65 <=? n) && (n <=? 90) then Some (n - 55)
  else None.

(** Digits of a non-negative [n] in base [b], most significant first.  [fuel]
    bounds the number of digits; [digits] passes enough. *)
Fixpoint digits_aux (fuel : nat) (b n : Z) (acc : text) : text :=
  match fuel with
  | O => acc
  | S fuel =>
      let acc := digit_char (n mod b) :: acc in
      if n / b =? 0 then acc else digits_aux fuel b (n / b) acc
  end.
Definition digits (b n : Z) : text := digits_aux (S (Z.to_nat (Z.log2 n))) b n [].

(** [str(n)], ["%x" % n], ["%o" % n] *)
Definition fmt_int (b n : Z) : text :=
  if n <? 0 then "-"%char :: digits b (- n) else digits b n.
Definition str_int (n : Z) : text := fmt_int 10 n.

Definition padl (w : nat) (c : ascii) (s : text) : text :=
  repeat c (w - List.length s)%nat ++ s.
(** ["%-<w>s" % s] *)
Definition padr (w : nat) (c : ascii) (s : text) : text :=
  s ++ repeat c (w - List.length s)%nat.

(** ["%0<w>x" % n] : zero padding between sign and digits, sign included in the width *)
Definition fmt_int0 (b : Z) (w : nat) (n : Z) : text :=
  if n <? 0 then "-"%char :: padl (w - 1) "0"%char (digits b (- n))
  else padl w "0"%char (digits b n).

(** Reading a number: every character must be a digit of the base. *)
Fixpoint read_digits (b : Z) (s : text) (acc : Z) : option Z :=
  match s with
  | [] => Some acc
  | c :: s =>
      match digit_val c with
      | Some d => if d <? b then read_digits b s (acc * b + d) else None
      | None => None
      end
  end.
Definition read_uint (b : Z) (s : text) : option Z :=
  match s with [] => None | _ => read_digits b s 0 end.

(** ** Characters *)
Definition in_range (lo hi : Z) (c : ascii) : bool := (lo <=? b2z c) && (b2z c <=? hi).
Definition is_digit (c : ascii) : bool := in_range 48 57 c.
Definition is_lower (c : ascii) : bool := in_range 97 122 c.
Definition is_upper (c : ascii) : bool := in_range 65 90 c.
(** [str.isspace] / [\s] on code points below 256 *)
Definition is_space (c : ascii) : bool :=
  let n := b2z c in
  ((9 <=? n) && (n <=? 13)) || ((28 <=? n) && (n <=? 32)) || (n =? 133) || (n =? 160).
Definition char_in (s : text) (c : ascii) : bool := existsb (Ascii.eqb c) s.

(** ** String functions *)
Fixpoint text_eqb (a b : text) : bool :=
  match a, b with
  | [], [] => true
  | x :: a, y :: b => Ascii.eqb x y && text_eqb a b
  | _, _ => false
  end.

(** [s.startswith(p)] *)
Fixpoint starts_with (p s : text) : bool :=
  match p, s with
  | [], _ => true
  | x :: p, y :: s => Ascii.eqb x y && starts_with p s
  | _, _ => false
  end.
(** [s.endswith(p)] *)
Definition ends_with (p s : text) : bool := starts_with (rev p) (rev s).

(** [sep.join(l)] *)
Fixpoint join (sep : text) (l : list text) : text :=
  match l with
  | [] => []
  | [x] => x
  | x :: l => x ++ sep ++ join sep l
  end.

(** [s.split(c)] for a one-character separator *)
Fixpoint split_char (c : ascii) (s : text) : list text :=
  match s with
  | [] => [[]]
  | x :: s =>
      match split_char c s with
      | [] => [[]]   (* impossible *)
      | p :: ps => if Ascii.eqb x c then [] :: p :: ps else (x :: p) :: ps
      end
  end.

(** [s.lstrip()], [s.rstrip()], [s.strip()] without argument *)
Fixpoint lstrip (s : text) : text :=
  match s with
  | [] => []
  | c :: s' => if is_space c then lstrip s' else s
  end.
Definition rstrip (s : text) : text := rev (lstrip (rev s)).
Definition strip (s : text) : text := rstrip (lstrip s).

(** [s.find(p)] : index of the first occurrence *)
Fixpoint find_sub (p s : text) : option nat :=
  if starts_with p s then Some O
  else match s with
       | [] => None
       | _ :: s => match find_sub p s with Some n => Some (S n) | None => None end
       end.
(** [p in s] *)
Definition contains (p s : text) : bool :=
  match find_sub p s with Some _ => true | None => false end.

(** [s.split(c, 1)] : [None] when the separator is absent *)
Fixpoint split1 (c : ascii) (s : text) : option (text * text) :=
  match s with
  | [] => None
  | x :: s =>
      if Ascii.eqb x c then Some ([], s)
      else match split1 c s with
           | Some (a, b) => Some (x :: a, b)
           | None => None
           end
  end.
(** [s.rsplit(c, 1)] *)
Definition rsplit1 (c : ascii) (s : text) : option (text * text) :=
  match split1 c (rev s) with
  | Some (a, b) => Some (rev b, rev a)
  | None => None
  end.

(** [s.split()] on white space *)
Fixpoint split_ws_aux (s : text) (cur : text) : list text :=
  match s with
  | [] => match cur with [] => [] | _ => [rev cur] end
  | c :: s =>
      if is_space c
      then match cur with [] => split_ws_aux s [] | _ => rev cur :: split_ws_aux s [] end
      else split_ws_aux s (c :: cur)
  end.
Definition split_ws (s : text) : list text := split_ws_aux s [].

Definition to_lower_char (c : ascii) : ascii :=
  if is_upper c then z2b (b2z c + 32) else c.
Definition lower (s : text) : text := map to_lower_char s.
Definition to_upper_char (c : ascii) : ascii :=
  if is_lower c then z2b (b2z c - 32) else c.
Definition upper (s : text) : text := map to_upper_char s.

(** ** Dictionaries: association lists in insertion order, one entry per key *)
Section Dict.
  Context {K V : Type} (eqb : K -> K -> bool).
  Fixpoint dget (k : K) (d : list (K * V)) : option V :=
    match d with
    | [] => None
    | (k', v) :: d => if eqb k k' then Some v else dget k d
    end.
  Fixpoint dset (k : K) (v : V) (d : list (K * V)) : list (K * V) :=
    match d with
    | [] => [(k, v)]
    | (k', v') :: d => if eqb k k' then (k', v) :: d else (k', v') :: dset k v d
    end.
  Fixpoint ddel (k : K) (d : list (K * V)) : list (K * V) :=
    match d with
    | [] => []
    | (k', v') :: d => if eqb k k' then d else (k', v') :: ddel k d
    end.
  Definition dmem (k : K) (d : list (K * V)) : bool :=
    match dget k d with Some _ => true | None => false end.
End Dict.

(** Python slicing [s[i:j]] for [0 <= i], [0 <= j] *)
Definition slice {A} (i j : Z) (s : list A) : list A :=
  firstn (Z.to_nat (j - i)) (skipn (Z.to_nat i) s).

(** [range(n)] as integers *)
Definition zrange (n : nat) : list Z := map Z.of_nat (seq 0 n).

Definition zlen {A} (l : list A) : Z := Z.of_nat (List.length l).
Arguments zlen {A} l : simpl never.

(** Python slicing [s[i:j]] with Python's treatment of negative and out-of-range bounds
    ([None] = omitted bound). *)
Definition py_clamp (n i : Z) : Z :=
  if i <? 0 then Z.max 0 (i + n) else Z.min i n.
Definition pyslice {A} (i j : option Z) (s : list A) : list A :=
  let n := zlen s in
  let i := match i with Some i => py_clamp n i | None => 0 end in
  let j := match j with Some j => py_clamp n j | None => n end in
  firstn (Z.to_nat (j - i)) (skipn (Z.to_nat i) s).
