(** * FmtSpec: the formats of Python, written from the documentation (library/stdtypes.html, "printf-style String Formatting"). *)
From Coq Require Import ZArith List Ascii String Bool.
From Verif Require Import PyBase FmtModel.
Import ListNotations.

(** "1. The '%' character  2. Mapping key  3. Conversion flags  4. Minimum field width  5. Precision  6. Length modifier  7. Conversion type".  Keys are left out. *)
Inductive number : Type := Digits (d : text) | FromArgs.
Record conversion : Type := C { flags : text; width : option number; prec : option number; modifier : option ascii; letter : ascii }.
Inductive piece : Type := Lit (c : ascii) | Percent | Conv (c : conversion).

Definition opt {A} (f : A -> text) (o : option A) : text := match o with Some a => f a | None => [] end.
Definition number_text (n : number) : text := match n with Digits d => d | FromArgs => T "*" end.
Definition conv_text (c : conversion) : text :=
  T "%" ++ flags c ++ opt number_text (width c) ++ opt (fun n => T "." ++ number_text n) (prec c) ++ opt (fun a => [a]) (modifier c) ++ [letter c].
Definition piece_text (p : piece) : text := match p with Lit c => [c] | Percent => T "%%" | Conv c => conv_text c end.

(** Well-formed: the width does not begin with 0, which would be a flag *)
Definition wf_width (n : number) : Prop := match n with Digits d => (exists c d', d = c :: d' /\ c <> "0"%char) /\ Forall (fun c => is_digit c = true) d | FromArgs => True end.
Definition wf_prec (n : number) : Prop := match n with Digits d => Forall (fun c => is_digit c = true) d | FromArgs => True end.
Definition wf_conv (c : conversion) : Prop :=
  Forall (fun c => In c (T "-+ #0")) (flags c) /\ match width c with Some n => wf_width n | None => True end /\ match prec c with Some n => wf_prec n | None => True end
  /\ match modifier c with Some m => In m (T "hlL") | None => True end /\ In (letter c) (T "diouxXeEfFgGcrsa").
Definition wf (p : piece) : Prop := match p with Lit c => c <> "%"%char | Percent => True | Conv c => wf_conv c end.

(** What a conversion asks of the next values *)
Definition is_int (v : value) : Prop := v = VInt.
Definition takes (l : ascii) (v : value) : Prop :=
  match v with
  | VInt => True
  | VFloat => ~ In l (T "oxXc")
  | VChar => In l (T "sra") \/ l = "c"%char
  | VOther => In l (T "sra")
  end.
Definition star (o : option number) : list (value -> Prop) := match o with Some FromArgs => [is_int] | _ => [] end.
Definition wants (p : piece) : list (value -> Prop) :=
  match p with Lit _ | Percent => [] | Conv c => star (width c) ++ star (prec c) ++ [takes (letter c)] end.
(** The arguments are as many as the values that the format asks for, each of a right kind *)
Definition right_args (ps : list piece) (args : list value) : Prop := Forall2 (fun (q : value -> Prop) v => q v) (flat_map wants ps) args.
