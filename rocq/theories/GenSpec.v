(** * GenSpec: what the generator of the prototypes should print for a header *)
From Coq Require Import ZArith List Ascii String Bool Sorted.
From Verif Require Import PyBase.
Import ListNotations.
Open Scope Z_scope.

(** A parameter in C: the words of its type, the number of "*" after them and its name (empty:
    no name). *)
Record param := { p_words : list text; p_stars : nat; p_name : text }.
Record decl := { d_name : text; d_params : list param }.

Definition white (w : text) : Prop := forall c, In c w -> is_space c = true.
Definition stars (n : nat) : text := repeat "*"%char n.
(** A word of the header: no white space, no comma, no parenthesis. *)
Definition word (t : text) : Prop :=
  t <> [] /\ forall c, In c t -> is_space c = false /\ c <> ","%char /\ c <> "("%char /\ c <> ")"%char.

(** The words of a parameter as they are written: the stars stand alone or before the name.
    "__user" can stand anywhere, but not at the end. *)
Inductive ending (p : param) : list text -> Prop :=
| end_alone : ending p ((if Nat.eqb (p_stars p) 0 then [] else [stars (p_stars p)])
                        ++ (if text_eqb (p_name p) [] then [] else [p_name p]))
| end_joined : p_stars p <> O -> p_name p <> [] -> ending p [stars (p_stars p) ++ p_name p].
Definition tokens (p : param) (ts : list text) : Prop :=
  (exists e, ending p e /\ filter (fun t => negb (text_eqb t (T "__user"))) ts = p_words p ++ e)
  /\ last ts [] <> T "__user".

(** Words separated by white space, which can also stand before the first one. *)
Definition spaced (ts : list text) (s : text) : Prop :=
  exists ws, List.length ws = List.length ts /\ Forall white ws /\ Forall (fun w => w <> []) (tl ws)
  /\ s = List.concat (map (fun x => fst x ++ snd x) (combine ws ts)).

(** A declaration [asmlinkage long sys_NAME(PARAMETERS)]. *)
Definition decl_text (d : decl) (s : text) : Prop :=
  exists prefix args,
    In prefix [T "asmlinkage long sys_"; T "asmlinkage long sys32_"]
    /\ s = prefix ++ d_name d ++ T "(" ++ join (T ",") args ++ T ")"
    /\ match d_params d with
       | [] => exists a, args = [a] /\ spaced [T "void"] a
       | ps => Forall2 (fun p a => exists ts, tokens p ts /\ spaced ts a) ps args
       end.

(** A header: declarations, each beginning a line, and other lines. *)
Definition newline : text := ["010"%char].
Inductive header : text -> list decl -> Prop :=
| h_end : header [] []
| h_line : forall l s ds,
    ~ In "010"%char l ->
    starts_with (T "asmlinkage long sys_") l = false ->
    starts_with (T "asmlinkage long sys32_") l = false ->
    header s ds -> header (l ++ newline ++ s) ds
| h_decl : forall d t l s ds,
    decl_text d t -> ~ In "010"%char l ->
    header s ds -> header (t ++ l ++ newline ++ s) (d :: ds).

(** The declarations the generator is made for: the name of a parameter does not end like a
    type without name, and the type of a parameter without name does. *)
Definition type_ends : list text := [T "*"; T "long"; T "int"; T "size_t"].
Definition like_type (t : text) : bool := existsb (fun e => ends_with e t) type_ends.
Definition plain_word (t : text) : Prop := word t /\ contains (T "__user") t = false.
Definition good_param (p : param) : Prop :=
  p_words p <> [] /\ Forall plain_word (p_words p)
  /\ if text_eqb (p_name p) []
     then p_stars p <> O \/ like_type (last (p_words p) []) = true
     else plain_word (p_name p) /\ ~ In "*"%char (p_name p) /\ like_type (p_name p) = false.
Definition good (d : decl) : Prop :=
  ~ In "("%char (d_name d) /\ Forall good_param (d_params d).

(** The type as it is printed; the descriptors of pipe() are an array of two integers. *)
Definition type_text (p : param) : text :=
  join (T " ") (p_words p ++ if Nat.eqb (p_stars p) 0 then [] else [stars (p_stars p)]).
Definition shown_type (name : text) (p : param) : text :=
  if (text_eqb name (T "pipe") || text_eqb name (T "pipe2")) && text_eqb (type_text p) (T "int *")
  then T "int[2]" else type_text p.

(** The lines of one entry of the table. *)
Definition quoted (t : text) : text := T """" ++ t ++ T """".
Definition entry (d : decl) : list text :=
  [quoted (d_name d) ++ T ": (" ++ quoted (T "long") ++ T ", ("]
  ++ map (fun p => T "    (" ++ quoted (shown_type (d_name d) p) ++ T ", " ++ quoted (p_name p) ++ T "),")
         (d_params d)
  ++ [T ")),"].

(** The last declaration of a name. *)
Definition last_of (ds : list decl) (d : decl) : Prop :=
  exists a b, ds = a ++ d :: b /\ forall x, In x b -> d_name x <> d_name d.

(** Strict order of the texts. *)
Inductive text_lt : text -> text -> Prop :=
| lt_nil : forall c s, text_lt [] (c :: s)
| lt_char : forall c c' s s', b2z c < b2z c' -> text_lt (c :: s) (c' :: s')
| lt_rest : forall c s s', text_lt s s' -> text_lt (c :: s) (c :: s').

(** The table of a header: the last declaration of every name, in the order of the names. *)
Definition table_of (ds : list decl) (lines : list text) : Prop :=
  exists es, StronglySorted (fun a b => text_lt (d_name a) (d_name b)) es
  /\ (forall d, In d es <-> last_of ds d)
  /\ lines = List.concat (map entry es).

(** The C header of a table of prototypes, and the text of the table. *)
Definition c_args (args : list (text * text)) : text :=
  match args with
  | [] => T "void"
  | _ => join (T ", ") (map (fun a => (if text_eqb (fst a) (T "int[2]") then T "int *" else fst a) ++ T " " ++ snd a) args)
  end.
Definition c_header (table : list (text * (text * list (text * text)))) : text :=
  List.concat (map (fun e => T "asmlinkage long sys_" ++ fst e ++ T "(" ++ c_args (snd (snd e)) ++ T ");" ++ newline) table).
Definition table_lines (table : list (text * (text * list (text * text)))) : list text :=
  List.concat (map (fun e =>
    [quoted (fst e) ++ T ": (" ++ quoted (fst (snd e)) ++ T ", ("]
    ++ map (fun a => T "    (" ++ quoted (fst a) ++ T ", " ++ quoted (snd a) ++ T "),") (snd (snd e))
    ++ [T ")),"]) table).
