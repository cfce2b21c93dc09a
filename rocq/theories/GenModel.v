(** * GenModel: the generator of the table of prototypes, SYSCALL_PROTOTYPES.codegen.py

    The downloaded header is the argument [source]; what is printed is the list of lines.
    Simplification: white space is that of [str.split] on code points below 256 (the header
    is ASCII). *)
From Coq Require Import ZArith List Ascii String Bool.
From Verif Require Import PyBase.
Import ListNotations.
Open Scope Z_scope.

(** [s.replace(p, "")] : occurrences from left to right, without overlap.  [skip] is the
    number of characters of the present occurrence still to be dropped. *)
Fixpoint remove_sub (p : text) (skip : nat) (s : text) : text :=
  match s with
  | [] => []
  | c :: r =>
      match skip with
      | S k => remove_sub p k r
      | O => if starts_with p s then remove_sub p (List.length p - 1) r
             else c :: remove_sub p O r
      end
  end.

(** One match of the pattern [p1] (SYSCALL_PROTOTYPES.codegen.py 14-15)
    [^asmlinkage long sys(?:32)?_(.*?)\((.*?)\)] with DOTALL at the beginning of [s]: the two
    groups and the text after the match.  Both groups are lazy and each is followed by one
    character: the first group ends at the first "(", the second at the first ")" after it
    (when there is none after the first "(" there is none after a later one either). *)
Definition match_decl (s : text) : option (text * text * text) :=
  let head := T "asmlinkage long sys" in
  if starts_with head s then
    let s := skipn (List.length head) s in
    let s := if starts_with (T "32_") s then skipn 2 s else s in
    if starts_with (T "_") s then
      match split1 "("%char (skipn 1 s) with
      | Some (name, s) =>
          match split1 ")"%char s with
          | Some (args, s) => Some (name, args, s)
          | None => None
          end
      | None => None
      end
    else None
  else None.

(** [p1.finditer(source)] (codegen 20): [bol] tells whether [s] is at the beginning of a line
    (MULTILINE); after a match the previous character is ")".  The fuel is the length of the
    text plus one. *)
Fixpoint find_decls (fuel : nat) (bol : bool) (s : text) : list (text * text) :=
  match fuel with
  | O => []
  | S fuel =>
      match (if bol then match_decl s else None) with
      | Some (name, args, s) => (name, args) :: find_decls fuel false s
      | None =>
          match s with
          | [] => []
          | c :: s => find_decls fuel (Ascii.eqb c "010"%char) s
          end
      end
  end.

(** The longest beginning of characters satisfying [f]. *)
Fixpoint span (f : ascii -> bool) (s : text) : text * text :=
  match s with
  | [] => ([], [])
  | c :: r => if f c then let '(a, b) := span f r in (c :: a, b) else ([], s)
  end.

(** [p2.match(arg)] (codegen 16) with [^(.*?)([^ *]+)$] on a text without newline: the first
    group is as short as possible, so that the second is the longest end of the text without
    space and "*"; it must not be empty. *)
Definition match_arg (arg : text) : option (text * text) :=
  let '(name, rest) := span (fun c => negb (Ascii.eqb c " " || Ascii.eqb c "*")) (rev arg) in
  match name with
  | [] => None
  | _ => Some (rev rest, rev name)
  end.

(** The body of the loop over the arguments (codegen 27-37); [m2.group] of a failed match
    raises AttributeError. *)
Definition gen_arg (call_name arg : text) : res (text * text) :=
  do tn <- (if existsb (fun e => ends_with e arg) [T "*"; T "long"; T "int"; T "size_t"]
            then Ok (strip arg, [])
            else match match_arg arg with
                 | Some (ty, name) => Ok (strip ty, strip name)
                 | None => Err EAttributeError
                 end);
  let '(arg_type, arg_name) := tn in
  let arg_type :=
    if (text_eqb call_name (T "pipe") || text_eqb call_name (T "pipe2"))
       && text_eqb arg_type (T "int *")
    then T "int[2]" else arg_type in
  Ok (arg_type, arg_name).

(** codegen 22-37: the arguments of one declaration *)
Definition gen_args (call_name args : text) : res (list (text * text)) :=
  let args := remove_sub (T "__user") 0 args in
  let args := join (T " ") (split_ws args) in
  if text_eqb args (T "void") then Ok []
  else mapM (gen_arg call_name) (split_char ","%char args).

(** codegen 18-38: the dictionary SYSCALL_PROTOTYPES; the result type is always "long" *)
Definition prototype : Type := text * list (text * text).
Fixpoint gen_table (decls : list (text * text)) (d : list (text * prototype))
  : res (list (text * prototype)) :=
  match decls with
  | [] => Ok d
  | (name, args) :: decls =>
      do l <- gen_args name args;
      gen_table decls (dset text_eqb name (T "long", l) d)
  end.

(** [sorted] of texts: insertion in the order of the characters. *)
Fixpoint text_leb (a b : text) : bool :=
  match a, b with
  | [], _ => true
  | _, [] => false
  | x :: a, y :: b =>
      if b2z x <? b2z y then true else if b2z y <? b2z x then false else text_leb a b
  end.
Fixpoint insert_text (x : text) (l : list text) : list text :=
  match l with
  | [] => [x]
  | y :: r => if text_leb x y then x :: l else y :: insert_text x r
  end.
Definition sorted_texts (l : list text) : list text := fold_right insert_text [] l.

(** codegen 41-46: the lines printed for one call *)
Definition gen_entry (d : list (text * prototype)) (name : text) : res (list text) :=
  match dget text_eqb name d with
  | Some (result, args) =>
      Ok ((T """" ++ name ++ T """: (""" ++ result ++ T """, (")
          :: map (fun a => T "    (""" ++ fst a ++ T """, """ ++ snd a ++ T """),") args
          ++ [T ")),"])
  | None => Err EKeyError
  end.

(** codegen 12-46: the lines printed for a header *)
Definition codegen (source : text) : res (list text) :=
  do d <- gen_table (find_decls (S (List.length source)) true source) [];
  do l <- mapM (gen_entry d) (sorted_texts (map fst d));
  Ok (List.concat l).
