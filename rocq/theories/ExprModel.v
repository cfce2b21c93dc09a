(** * ExprModel: expressions of the debuggers (ptrace/debugger/parse_expr.py; gdb.py parseInteger, parseIntegers).
    [eval]: the built-in function eval(), [getreg]: process.getreg(), [read]: process.readWord(). *)
From Coq Require Import ZArith List Ascii String Bool.
From Verif Require Import PyBase PyInt Platform IntModel RegexModel PyEval.
Import ListNotations.
Open Scope Z_scope.

(** text.replace("/", "//") *)
Definition double_slash (s : text) : text := flat_map (fun c => if Ascii.eqb c "/"%char then [c; c] else [c]) s.
Definition is_af (c : ascii) : bool := in_range 97 102 c.
Definition is_name (c : ascii) : bool := is_lower c || is_digit c || Ascii.eqb c "_"%char.
(** The characters ()<>+*/&0-9- *)
Definition safe_char (c : ascii) : bool := is_digit c || char_in (T "()<>+*/&-") c.

(** parse_expr.py 4, 7, 13; gdb.py 44, 232, 235 *)
Definition HEXADECIMAL_REGEX : regex := RCat (rtext (T "0x")) (rplus (RSet is_hex_lower)).
Definition REGISTER_REGEX : regex := RGroup 1 (RCat (rplus (RSet is_lower)) (rplus (RSet is_name))).
Definition EXPR_REGEX : regex := rcat [RBegin; rplus (RSet safe_char); REnd].
Definition GDB_REGISTER_REGEX : regex := RCat (rchar "$"%char) (RCat (rplus (RSet is_lower)) (rplus (RSet is_name))).
Definition GDB_NUMBER_REGEX : regex := RCat (ropt (rtext (T "0x"))) (rplus (RSet is_hex_lower)).

(** parse_expr.py 16-27; gdb.py 224-231 *)
Definition replaceHexadecimal (m : rmatch) : res text :=
  let t := m_text m in
  if starts_with (T "0x") t then do v <- py_int 16 (skipn 2 t); Ok (str_int v)
  else if existsb is_af t then do v <- py_int 16 t; Ok (str_int v)
  else Ok t.

Section Expr.
  Context (p : platform) (eval : text -> res pyval) (getreg : text -> res Z) (read : Z -> res Z).
  (** parse_expr.py 52-55 *)
  Definition readRegister (m : rmatch) : res text :=
    match group 1 (m_groups m) with
    | Some name => do v <- getreg name; Ok (str_int v)
    | None => Err ETypeError
    end.
  Definition syntax_is_value {A} (r : res A) : res A := match r with Err ESyntaxError => Err EValueError | r => r end.
  (** parse_expr.py 30-76 *)
  Definition parseExpression (s : text) : res pyval :=
    let s := strip s in
    if contains (T " ") s then Err EValueError
    else
      let s := lower s in
      do s <- re_sub HEXADECIMAL_REGEX replaceHexadecimal s;
      do s <- re_sub REGISTER_REGEX readRegister s;
      match re_match EXPR_REGEX s with
      | None => Err EValueError
      | Some _ => syntax_is_value (eval (double_slash s))
      end.

  (** gdb.py 207-210 *)
  Definition gdb_readRegister (m : rmatch) : res text := do v <- getreg (skipn 1 (m_text m)); Ok (str_int v).
  (** truncateWord of a value: value & mask (ptrace/ctypes_tools.py 42-53, 114-125) *)
  Definition truncate_value (v : pyval) : res Z :=
    match as_int v with
    | Some z => Ok (truncateWord p z)
    | None => Err ETypeError
    end.
  (** gdb.py 212-252 *)
  Definition parseInteger (s : text) : res Z :=
    let s := strip s in
    if contains (T " ") s then Err EValueError
    else
      let s := lower s in
      do s <- re_sub GDB_REGISTER_REGEX gdb_readRegister s;
      do s <- re_sub GDB_NUMBER_REGEX replaceHexadecimal s;
      match re_match EXPR_REGEX s with
      | None => Err EValueError
      | Some _ =>
          let s := double_slash s in
          let is_pointer := starts_with (T "*") s in
          let s := if is_pointer then skipn 1 s else s in
          do v <- syntax_is_value (do v <- eval s; truncate_value v);
          if is_pointer then read v else Ok v
      end.
  (** gdb.py 254-260 *)
  Definition parseIntegers (s : text) : res (list Z) := mapM parseInteger (map strip (split_ws s)).
End Expr.
