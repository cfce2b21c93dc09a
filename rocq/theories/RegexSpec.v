(** * RegexSpec: what a regular expression matches, independently of any matcher.
    [den r b w rest c c']: at a position preceded by [b] (last character first), [r] matches the text [w] when [rest]
    follows, and the groups [c] become [c']. *)
From Coq Require Import ZArith List Ascii String Bool.
From Verif Require Import PyBase RegexModel.
Import ListNotations.

(** A repetition: iterations that consume something *)
Inductive iter (body : text -> text -> text -> caps -> caps -> Prop) : text -> text -> text -> caps -> caps -> Prop :=
| iter_nil b rest c : iter body b [] rest c c
| iter_cons b w1 w2 rest c c1 c2 : w1 <> [] -> body b w1 (w2 ++ rest) c c1 -> iter body (rev w1 ++ b) w2 rest c1 c2 -> iter body b (w1 ++ w2) rest c c2.

Fixpoint den (r : regex) (b w rest : text) (c c' : caps) : Prop :=
  match r with
  | RSet f => exists x, w = [x] /\ f x = true /\ c' = c
  | REmpty => w = [] /\ c' = c
  | RCat r1 r2 => exists w1 w2 c1, w = w1 ++ w2 /\ den r1 b w1 (w2 ++ rest) c c1 /\ den r2 (rev w1 ++ b) w2 rest c1 c'
  | RAlt r1 r2 => den r1 b w rest c c' \/ den r2 b w rest c c'
  | RStar r => iter (den r) b w rest c c'
  | RGroup n r => exists c1, den r b w rest c c1 /\ c' = dset Nat.eqb n w c1
  | RBegin => w = [] /\ c' = c /\ b = []
  | REnd => w = [] /\ c' = c /\ (rest = [] \/ rest = [newline])
  | RBound => w = [] /\ c' = c /\ xorb (starts_word b) (starts_word rest) = true
  end.

(** The class \w (ASCII) *)
Definition word_char (c : ascii) : Prop :=
  In c (T "abcdefghijklmnopqrstuvwxyzABCDEFGHIJKLMNOPQRSTUVWXYZ0123456789_").
