(** * RegexModel: Python regular expressions (module re), the constructions used by the library.
    A backtracking matcher with the priorities of Python: alternatives from left to right, greedy repetitions,
    groups keep their last match.  [.] is any character but the newline. *)
From Coq Require Import ZArith List Ascii String Bool.
From Verif Require Import PyBase.
Import ListNotations.

Inductive regex : Type :=
| RSet (f : ascii -> bool)           (* one character *)
| REmpty
| RCat (a b : regex)
| RAlt (a b : regex)
| RStar (a : regex)                  (* greedy; an iteration consumes something *)
| RGroup (n : nat) (a : regex)
| RBegin                             (* ^ *)
| REnd                               (* $ : the end, or before a newline at the end *)
| RBound.                            (* \b *)

(** A position: the characters before it (last first), and those after it *)
Definition pos : Type := text * text.
(** The groups *)
Definition caps : Type := list (nat * text).
Definition group (n : nat) (c : caps) : option text := dget Nat.eqb n c.
Definition newline : ascii := z2b 10.
Definition is_word (c : ascii) : bool := is_lower c || is_upper c || is_digit c || Ascii.eqb c "_"%char.
Definition starts_word (l : text) : bool := match l with c :: _ => is_word c | [] => false end.

Section Star.
  Context {R : Type} (body : pos -> caps -> (pos -> caps -> option R) -> option R).
  Fixpoint star (fuel : nat) (p : pos) (c : caps) (k : pos -> caps -> option R) : option R :=
    match fuel with
    | O => k p c
    | S fuel =>
        match body p c (fun p' c' => if Nat.ltb (List.length (snd p')) (List.length (snd p)) then star fuel p' c' k else None) with
        | Some r => Some r
        | None => k p c
        end
    end.
End Star.
Fixpoint mat {R : Type} (r : regex) (p : pos) (c : caps) (k : pos -> caps -> option R) : option R :=
  match r with
  | RSet f => match snd p with
              | x :: rest => if f x then k (x :: fst p, rest) c else None
              | [] => None
              end
  | REmpty => k p c
  | RCat a b => mat a p c (fun p c => mat b p c k)
  | RAlt a b => match mat a p c k with Some x => Some x | None => mat b p c k end
  | RStar a => star (mat a) (S (List.length (snd p))) p c k
  | RGroup n a =>
      mat a p c (fun p' c => k p' (dset Nat.eqb n (firstn (List.length (snd p) - List.length (snd p')) (snd p)) c))
  | RBegin => match fst p with [] => k p c | _ => None end
  | REnd => match snd p with
            | [] => k p c
            | [x] => if Ascii.eqb x newline then k p c else None
            | _ => None
            end
  | RBound => if xorb (starts_word (fst p)) (starts_word (snd p)) then k p c else None
  end.
(** A match: the text before it, the matched text, the text after it, the groups *)
Record rmatch : Type := RMatch { m_before : text; m_text : text; m_after : text; m_groups : caps }.
Definition match_at (r : regex) (p : pos) : option rmatch :=
  match mat r p [] (fun p' c => Some (p', c)) with
  | Some (p', c) => Some (RMatch (rev (fst p)) (firstn (List.length (snd p) - List.length (snd p')) (snd p)) (snd p') c)
  | None => None
  end.
(** re.match(r, s) *)
Definition re_match (r : regex) (s : text) : option rmatch := match_at r ([], s).
(** The first match from a position on *)
Fixpoint search_from (r : regex) (before rest : text) : option rmatch :=
  match match_at r (before, rest) with
  | Some m => Some m
  | None => match rest with
            | [] => None
            | x :: rest => search_from r (x :: before) rest
            end
  end.
(** re.search(r, s) *)
Definition re_search (r : regex) (s : text) : option rmatch := search_from r [] s.
(** r.finditer(s), for expressions that do not match the empty text: matches do not overlap *)
Fixpoint finditer_aux (fuel : nat) (r : regex) (before rest : text) : list rmatch :=
  match fuel with
  | O => []
  | S fuel =>
      match search_from r before rest with
      | Some m => m :: finditer_aux fuel r (rev (m_text m) ++ rev (m_before m)) (m_after m)
      | None => []
      end
  end.
Definition re_finditer (r : regex) (s : text) : list rmatch := finditer_aux (S (List.length s)) r [] s.
(** r.sub(f, s) : the callback may raise; same restriction *)
Fixpoint sub_aux (fuel : nat) (r : regex) (f : rmatch -> res text) (before rest : text) : res text :=
  match fuel with
  | O => Ok rest
  | S fuel =>
      match search_from r before rest with
      | Some m =>
          do t <- f m;
          do rest' <- sub_aux fuel r f (rev (m_text m) ++ rev (m_before m)) (m_after m);
          Ok (skipn (List.length before) (m_before m) ++ t ++ rest')
      | None => Ok rest
      end
  end.
Definition re_sub (r : regex) (f : rmatch -> res text) (s : text) : res text := sub_aux (S (List.length s)) r f [] s.

(** ** Notations of the re module *)
Definition rchar (c : ascii) : regex := RSet (Ascii.eqb c).
Fixpoint rtext (t : text) : regex :=
  match t with
  | [] => REmpty
  | [c] => rchar c
  | c :: t => RCat (rchar c) (rtext t)
  end.
Definition rdot : regex := RSet (fun c => negb (Ascii.eqb c newline)).
Definition rplus (r : regex) : regex := RCat r (RStar r).
Definition ropt (r : regex) : regex := RAlt r REmpty.
Fixpoint rtimes (n : nat) (r : regex) : regex := match n with O => REmpty | S O => r | S n => RCat r (rtimes n r) end.
(** r{m,n} *)
Fixpoint rupto (n : nat) (r : regex) : regex := match n with O => REmpty | S n => ropt (RCat r (rupto n r)) end.
Definition rrange (m n : nat) (r : regex) : regex := RCat (rtimes m r) (rupto (n - m) r).
Fixpoint rcat (l : list regex) : regex := match l with [] => REmpty | [r] => r | r :: l => RCat r (rcat l) end.
Fixpoint ralt (l : list regex) : regex := match l with [] => REmpty | [r] => r | r :: l => RAlt r (ralt l) end.
Definition is_hex_lower (c : ascii) : bool := is_digit c || in_range 97 102 c.
