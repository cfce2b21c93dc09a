(** * DocModel: the examples of the documentation and their test (test_doc.py, ptrace/mockup.py, docstrings of ptrace/). *)
From Coq Require Import ZArith List Ascii String Bool.
From Verif Require Import PyBase PyInt Platform IntModel ToolsModel SigModel PyEval ExprModel ArgModel HostModel.
Import ListNotations.
Open Scope Z_scope.

(** ** doctest (Python library)
    Left out: directives (# doctest: ...), examples that are comments or tracebacks, <BLANKLINE>; no docstring of /repo has them. *)
Definition newline : ascii := z2b 10.
Definition spaces (n : nat) : text := List.repeat " "%char n.
Fixpoint indent_of (line : text) : nat := match line with c :: line => if Ascii.eqb c " "%char then S (indent_of line) else O | [] => O end.
Definition after_indent (line : text) : text := skipn (indent_of line) line.
Definition is_ps1 (line : text) : bool := starts_with (T ">>>") (after_indent line).
Definition is_ps2 (line : text) : bool := starts_with (T "...") (after_indent line).
Definition is_blank (line : text) : bool := match after_indent line with [] => true | _ => false end.

(** The lines of an example as they are found: those of the source, those of the expected output *)
Record found : Type := Found { f_source : list text; f_want : list text }.
(** DocTestParser._EXAMPLE_RE: [cur]: the example at hand and whether an output line was met *)
Fixpoint find_examples (cur : option (found * bool)) (lines : list text) : list found :=
  let close := match cur with Some (e, _) => [e] | None => [] end in
  match lines with
  | [] => close
  | line :: lines =>
      if is_ps1 line then close ++ find_examples (Some (Found [line] [], false)) lines
      else
        match cur with
        | None => find_examples None lines
        | Some (e, wanted) =>
            if negb wanted && is_ps2 line then find_examples (Some (Found (f_source e ++ [line]) (f_want e), false)) lines
            else if is_blank line then close ++ find_examples None lines
            else find_examples (Some (Found (f_source e) (f_want e ++ [line]), true)) lines
        end
  end.
(** An example without prompts and indentation *)
Record example : Type := Ex { source : list text; want : list text }.
(** DocTestParser._parse_example, _check_prompt_blank, _check_prefix *)
Definition prompt_blank (indent : nat) (line : text) : bool :=
  match skipn (indent + 3) line with [] => true | c :: _ => Ascii.eqb c " "%char end.
Definition prefixed (prefix line : text) : bool := match line with [] => true | _ => starts_with prefix line end.
Definition parse_example (e : found) : res example :=
  let indent := match f_source e with line :: _ => indent_of line | [] => O end in
  if negb (forallb (prompt_blank indent) (f_source e)) then Err EValueError
  else if negb (forallb (prefixed (spaces indent ++ T ".")) (tl (f_source e))) then Err EValueError
  else if negb (forallb (prefixed (spaces indent)) (f_want e)) then Err EValueError
  else Ok (Ex (map (skipn (indent + 4)) (f_source e)) (map (skipn indent) (f_want e))).
Definition get_examples (doc : text) : res (list example) := mapM parse_example (find_examples None (split_char newline doc)).

(** A function or class of the namespace of a module: its name, the module that defines it (__module__), its docstring *)
Record member : Type := Member { m_name : text; m_home : text; m_doc : option text }.
(** A module: __name__, what it defines or imports, its modules by name *)
Inductive pymod : Type := Mod (name : text) (members : list member) (submodules : list (text * pymod)).
Definition mod_name (m : pymod) : text := match m with Mod name _ _ => name end.
Definition mod_members (m : pymod) : list member := match m with Mod _ members _ => members end.
Definition mod_sub (m : pymod) : list (text * pymod) := match m with Mod _ _ sub => sub end.

Section Doctest.
  (** what the [n]-th example of a member of a module prints *)
  Context (exec : text -> text -> nat -> list text -> list text).
  (** DocTestRunner.run, OutputChecker.check_output *)
  Fixpoint lines_eqb (a b : list text) : bool :=
    match a, b with
    | [], [] => true
    | x :: a, y :: b => text_eqb x y && lines_eqb a b
    | _, _ => false
    end.
  Fixpoint run_examples (modname name : text) (n : nat) (l : list example) : Z * Z :=
    match l with
    | [] => (0, 0)
    | e :: l =>
        let (failures, tries) := run_examples modname name (S n) l in
        ((if lines_eqb (exec modname name n (source e)) (want e) then 0 else 1) + failures, 1 + tries)
    end.
  (** DocTestFinder._from_module *)
  Definition from_module (m : pymod) (x : member) : bool := text_eqb (m_home x) (mod_name m).
  (** testmod: the numbers of failures and of examples *)
  Fixpoint test_members (modname : text) (l : list member) : res (Z * Z) :=
    match l with
    | [] => Ok (0, 0)
    | x :: l =>
        do examples <- match m_doc x with Some doc => get_examples doc | None => Ok [] end;
        let (f, t) := run_examples modname (m_name x) O examples in
        do r <- test_members modname l;
        Ok (f + fst r, t + snd r)
    end.
  Definition testmod (m : pymod) : res (Z * Z) := test_members (mod_name m) (filter (from_module m) (mod_members m)).

  (** ** test_doc.py *)
  (** [import sys_path name]: __import__(name), the package of the first component *)
  Context (import : list text -> text -> res pymod).
  (** 20-23: getattr of a module *)
  Fixpoint walk (m : pymod) (components : list text) : res pymod :=
    match components with
    | [] => Ok m
    | c :: components => match dget text_eqb c (mod_sub m) with Some m => walk m components | None => Err EAttributeError end
    end.
  (** 18-23 *)
  Definition importModule (sys_path : list text) (name : text) : res pymod :=
    do m <- import sys_path name;
    walk m (tl (split_char "."%char name)).
  (** 26-32: the printed lines and the outcome *)
  Definition testModule (sys_path : list text) (name : text) : list text * res unit :=
    let start := T "--- Test module " ++ name in
    match (do m <- importModule sys_path name; testmod m) with
    | Err e => ([start], Err e)
    | Ok (failure, _) => if negb (failure =? 0) then ([start], Err (ESystemExit 1)) else ([start; T "--- End of test"], Ok tt)
    end.
  Fixpoint testModules (sys_path : list text) (names : list text) : list text * res unit :=
    match names with
    | [] => ([], Ok tt)
    | name :: names =>
        match testModule sys_path name with
        | (lines, Ok _) => let (lines', r) := testModules sys_path names in (lines ++ lines', r)
        | r => r
        end
    end.
  (** 43-48 *)
  Definition TESTED : list text :=
    [T "ptrace.ctypes_tools"; T "ptrace.debugger.parse_expr"; T "ptrace.logging_tools"; T "ptrace.signames"; T "ptrace.syscall.socketcall"; T "ptrace.tools"].
  (** 35-48; [file]: __file__ *)
  Definition main (sys_path : list text) (file : text) : list text * res unit := testModules (sys_path ++ [dirname file]) TESTED.
End Doctest.

(** ** ptrace/mockup.py 6-15: a FakeProcess is its registers *)
Definition FakeProcess : list (text * Z) := [].
Definition fake_setreg (regs : list (text * Z)) (name : text) (value : Z) : list (text * Z) := dset text_eqb name value regs.
Definition fake_getreg (regs : list (text * Z)) (name : text) : res Z := match dget text_eqb name regs with Some v => Ok v | None => Err EKeyError end.

(** ** Dates (Python library: datetime); see HostModel.timestampUNIX, where only whole seconds are looked at.
    A datetime is its number of microseconds since 1970-01-01 00:00. *)
Definition US : Z := 1000000.
(** timedelta(seconds=value) of the float [n / 2 ^ k]: rounded to microseconds, half to even *)
Definition float_us (n k : Z) : Z :=
  let d := 2 ^ k in let q := (n * US) / d in let r := (n * US) mod d in
  if 2 * r <? d then q else if d <? 2 * r then q + 1 else if Z.even q then q else q + 1.
Definition add_date_us (date delta : Z) : res Z :=
  let r := date + delta in
  if (DATE_MIN * US <=? r) && (r <? (DATE_MAX + 1) * US) then Ok r else Err EOverflowError.
Definition timedelta_us (us : Z) : res Z := if (DELTA_MIN * US <=? us) && (us <? (DELTA_MAX + 1) * US) then Ok us else Err EOverflowError.
(** ptrace/tools.py 87-104, [us]: the value in microseconds *)
Definition timestampUNIX_us (zone : Z -> Z) (us : Z) (is_local : bool) : res Z :=
  do delta <- timedelta_us us;
  do timestamp <- add_date_us 0 delta;
  if is_local then add_date_us timestamp (LOCAL_TIMEZONE_OFFSET zone * US) else Ok timestamp.
(** Lib/datetime.py: _is_leap, _days_before_month, _ord2ymd; 1 is 0001-01-01 *)
Definition is_leap (year : Z) : bool := (year mod 4 =? 0) && (negb (year mod 100 =? 0) || (year mod 400 =? 0)).
Definition DAYS_BEFORE_MONTH : list Z := [0; 31; 59; 90; 120; 151; 181; 212; 243; 273; 304; 334].
Definition days_before_month (leap : bool) (month : Z) : Z :=
  nth (Z.to_nat (month - 1)) DAYS_BEFORE_MONTH 0 + (if (2 <? month) && leap then 1 else 0).
Definition ord2ymd (n : Z) : Z * Z * Z :=
  let n := n - 1 in
  let n400 := n / 146097 in let n := n mod 146097 in
  let year := n400 * 400 + 1 in
  let n100 := n / 36524 in let n := n mod 36524 in
  let n4 := n / 1461 in let n := n mod 1461 in
  let n1 := n / 365 in let n := n mod 365 in
  let year := year + n100 * 100 + n4 * 4 + n1 in
  if (n1 =? 4) || (n100 =? 4) then (year - 1, 12, 31)
  else
    let leap := (n1 =? 3) && (negb (n4 =? 24) || (n100 =? 3)) in
    let month := Z.shiftr (n + 50) 5 in
    let preceding := days_before_month leap month in
    let '(month, preceding) := if n <? preceding then (month - 1, days_before_month leap (month - 1)) else (month, preceding) in
    (year, month, n - preceding + 1).
Definition EPOCH_ORDINAL : Z := 719163.
(** datetime.__repr__ *)
Definition repr_datetime (us : Z) : text :=
  let s := us / US in
  let '(year, month, day) := ord2ymd (s / 86400 + EPOCH_ORDINAL) in
  let rest := s mod 86400 in
  let second := rest mod 60 in let micro := us mod US in
  let fields := [year; month; day; rest / 3600; (rest / 60) mod 60] ++
    (if micro =? 0 then (if second =? 0 then [] else [second]) else [second; micro]) in
  T "datetime.datetime(" ++ join (T ", ") (map str_int fields) ++ T ")".

(** ** The docstrings with examples *)
(** ptrace/ctypes_tools.py 7-18, 23-34, 78-87, 92-105 *)
Definition doc_int2uint64 : text := T "
    Convert a signed 64 bits integer into an unsigned 64 bits integer.

    >>> print(int2uint64(1))
    1
    >>> print(int2uint64(2**64 + 1))  # ignore bits larger than 64 bits
    1
    >>> print(int2uint64(-1))
    18446744073709551615
    >>> print(int2uint64(-2))
    18446744073709551614
    ".
Definition doc_uint2int64 : text := T "
    Convert an unsigned 64 bits integer into a signed 64 bits integer.

    >>> print(uint2int64(1))
    1
    >>> print(uint2int64(2**64 + 1))  # ignore bits larger than 64 bits
    1
    >>> print(uint2int64(18446744073709551615))
    -1
    >>> print(uint2int64(18446744073709551614))
    -2
    ".
Definition doc_int2uint32 : text := T "
    Convert a signed 32 bits integer into an unsigned 32 bits integer.

    >>> print(int2uint32(1))
    1
    >>> print(int2uint32(2**32 + 1))  # ignore bits larger than 32 bits
    1
    >>> print(int2uint32(-1))
    4294967295
    ".
Definition doc_uint2int32 : text := T "
    Convert an unsigned 32 bits integer into a signed 32 bits integer.

    >>> print(uint2int32(1))
    1
    >>> print(uint2int32(2**32 + 1))  # ignore bits larger than 32 bits
    1
    >>> print(uint2int32(4294967295))
    -1
    >>> print(uint2int32(4294967294))
    -2
    >>> print(uint2int32(18446744073709551615))
    -1
    ".
(** ptrace/debugger/parse_expr.py 31-45 *)
Definition doc_parseExpression : text := T "
    Parse an expression. Syntax:
     - ""10"": decimal number
     - ""0x10"": hexadecimal number
     - ""eax"": register value
     - ""a+b"", ""a-b"", ""a*b"", ""a/b"", ""a**b"", ""a<<b"", ""a>>b"": operators

    >>> from ptrace.mockup import FakeProcess
    >>> process = FakeProcess()
    >>> parseExpression(process, ""1+1"")
    2
    >>> process.setreg(""eax"", 3)
    >>> parseExpression(process, ""eax*0x10"")
    48
    ".
(** ptrace/logging_tools.py 22-29 *)
Definition doc_changeLogLevel : text := T "
    Compute log level and make sure that the result is in DEBUG..ERROR.

    >>> changeLogLevel(ERROR, -1) == WARNING
    True
    >>> changeLogLevel(DEBUG, 1) == INFO
    True
    ".
(** ptrace/signames.py 48-56 *)
Definition doc_signalName : text := T "
    Get the name of a signal

    >>> from signal import SIGINT
    >>> signalName(SIGINT)
    'SIGINT'
    >>> signalName(404)
    'signal<404>'
    ".
(** ptrace/syscall/socketcall_struct.py 9-14 *)
Definition doc_ip_int2str : text := T "
    Convert an IP address (as an integer) to a string.

    >>> ip_int2str(0x7f000001)
    '127.0.0.1'
    ".
(** ptrace/tools.py 27-40, 53-65, 88-100, 132-141, 146-151, 159-166 *)
Definition doc_readBits : text := T "
    Extract bits from the integer value using a list of bit masks.
    bitmasks is a list of tuple (mask, text).

    >>> bitmask = (
    ...    (1, ""exec""),
    ...    (2, ""write""),
    ...    (4, ""read""))
    ...
    >>> readBits(5, bitmask)
    ['exec', 'read']
    >>> readBits(12, bitmask)
    ['read', '8']
    ".
Definition doc_formatBits : text := T "
    Format a value using a bitmask: see readBits() functions.

    >>> bitmask = (
    ...    (1, ""exec""),
    ...    (2, ""write""),
    ...    (4, ""read""))
    ...
    >>> formatBits(5, bitmask, empty_text=""no permission"")
    '<exec|read> (5)'
    >>> formatBits(0, bitmask, empty_text=""no permission"")
    'no permission'
    ".
Definition doc_timestampUNIX : text := T "
    Convert an UNIX (32-bit) timestamp to datetime object. Timestamp value
    is the number of seconds since the 1st January 1970 at 00:00. Maximum
    value is 2147483647: 19 january 2038 at 03:14:07.

    May raise ValueError for invalid value: value have to be in 0..2147483647.

    >>> timestampUNIX(0, False)
    datetime.datetime(1970, 1, 1, 0, 0)
    >>> timestampUNIX(1154175644.37, False)
    datetime.datetime(2006, 7, 29, 12, 20, 44, 370000)
    ".
Definition doc_minmax : text := T "
    Restrict value to [min_value; max_value]

    >>> minmax(-2, -3, 10)
    -2
    >>> minmax(-2, 27, 10)
    10
    >>> minmax(-2, 0, 10)
    0
    ".
Definition doc_inverseDict : text := T "
    Inverse a dictionary.

    >>> inverseDict({""0x10"": 16, ""0x20"": 32}) == {32: '0x20', 16: '0x10'}
    True
    ".
Definition doc_signal_to_exitcode : text := T "
    Converts a signal number to an exit code.
    UNIX: https://www.gnu.org/software/bash/manual/html_node/Exit-Status.html

    >>> import signal
    >>> signal_to_exitcode(signal.SIGQUIT)
    131
    ".

(** The package: the members with examples, where they are defined and where they are imported from modules of ptrace
    (ptrace/logging_tools.py 1; no other of these functions is imported by a tested module, neither is ip_int2str by socketcall.py 1-12) *)
Definition ptrace_tools : text := T "ptrace.tools".
Definition ptrace_package : pymod :=
  let fn modname f doc := Member (T f) modname (Some doc) in
  Mod (T "ptrace") [] [
    (T "ctypes_tools", let m := T "ptrace.ctypes_tools" in Mod m
      [fn m "int2uint64"%string doc_int2uint64; fn m "uint2int64"%string doc_uint2int64; fn m "int2uint32"%string doc_int2uint32; fn m "uint2int32"%string doc_uint2int32] []);
    (T "debugger", Mod (T "ptrace.debugger") [] [
      (T "parse_expr", let m := T "ptrace.debugger.parse_expr" in Mod m [fn m "parseExpression"%string doc_parseExpression] [])]);
    (T "logging_tools", let m := T "ptrace.logging_tools" in Mod m [fn m "changeLogLevel"%string doc_changeLogLevel; fn ptrace_tools "minmax"%string doc_minmax] []);
    (T "signames", let m := T "ptrace.signames" in Mod m [fn m "signalName"%string doc_signalName] []);
    (T "syscall", Mod (T "ptrace.syscall") [] [
      (T "socketcall", Mod (T "ptrace.syscall.socketcall") [] []);
      (T "socketcall_struct", let m := T "ptrace.syscall.socketcall_struct" in Mod m [fn m "ip_int2str"%string doc_ip_int2str] [])]);
    (T "tools", Mod ptrace_tools
      [fn ptrace_tools "readBits"%string doc_readBits; fn ptrace_tools "formatBits"%string doc_formatBits; fn ptrace_tools "timestampUNIX"%string doc_timestampUNIX;
       fn ptrace_tools "minmax"%string doc_minmax; fn ptrace_tools "inverseDict"%string doc_inverseDict; fn ptrace_tools "signal_to_exitcode"%string doc_signal_to_exitcode] [])].

(** ** What the examples print: the sources as they are written, and the lines that the model gives *)
Definition printed {A} (show : A -> text) (r : res A) : list text := match r with Ok v => [show v] | Err _ => [T "Traceback (most recent call last):"] end.
Definition show_bool (b : bool) : text := if b then T "True" else T "False".
Definition show_pyval (v : pyval) : text := match v with PyEval.VInt z => str_int z | VBool b => show_bool b | VTuple => T "()" end.
Definition show_list (l : list text) : text := T "[" ++ join (T ", ") (map repr_ascii l) ++ T "]".
Definition bitmask : list (Z * text) := [(1, T "exec"); (2, T "write"); (4, T "read")].
Definition bitmask_source : list text := [T "bitmask = ("; T "   (1, ""exec""),"; T "   (2, ""write""),"; T "   (4, ""read""))"; []].
(** d1 == d2 of two dictionaries *)
Definition dict_eqb (a b : list (Z * text)) : bool :=
  (List.length a =? List.length b)%nat && forallb (fun kv => match dget Z.eqb (fst kv) b with Some v => text_eqb v (snd kv) | None => false end) a.
Definition process0 : list (text * Z) := FakeProcess.
Definition process1 : list (text * Z) := fake_setreg process0 (T "eax") 3.
Definition parse_fake (regs : list (text * Z)) (s : text) : res pyval := parseExpression py_eval (fake_getreg regs) s.
(** UTC: not used by these examples *)
Definition utc (_ : Z) : Z := 0.
(** by member: source, printed lines *)
Definition sessions : list (text * list (list text * list text)) := [
  (T "int2uint64", [([T "print(int2uint64(1))"], [str_int (int2uint64 1)]);
     ([T "print(int2uint64(2**64 + 1))  # ignore bits larger than 64 bits"], [str_int (int2uint64 (2 ^ 64 + 1))]);
     ([T "print(int2uint64(-1))"], [str_int (int2uint64 (-1))]); ([T "print(int2uint64(-2))"], [str_int (int2uint64 (-2))])]);
  (T "uint2int64", [([T "print(uint2int64(1))"], [str_int (uint2int64 1)]);
     ([T "print(uint2int64(2**64 + 1))  # ignore bits larger than 64 bits"], [str_int (uint2int64 (2 ^ 64 + 1))]);
     ([T "print(uint2int64(18446744073709551615))"], [str_int (uint2int64 18446744073709551615)]);
     ([T "print(uint2int64(18446744073709551614))"], [str_int (uint2int64 18446744073709551614)])]);
  (T "int2uint32", [([T "print(int2uint32(1))"], [str_int (int2uint32 1)]);
     ([T "print(int2uint32(2**32 + 1))  # ignore bits larger than 32 bits"], [str_int (int2uint32 (2 ^ 32 + 1))]);
     ([T "print(int2uint32(-1))"], [str_int (int2uint32 (-1))])]);
  (T "uint2int32", [([T "print(uint2int32(1))"], [str_int (uint2int32 1)]);
     ([T "print(uint2int32(2**32 + 1))  # ignore bits larger than 32 bits"], [str_int (uint2int32 (2 ^ 32 + 1))]);
     ([T "print(uint2int32(4294967295))"], [str_int (uint2int32 4294967295)]);
     ([T "print(uint2int32(4294967294))"], [str_int (uint2int32 4294967294)]);
     ([T "print(uint2int32(18446744073709551615))"], [str_int (uint2int32 18446744073709551615)])]);
  (T "parseExpression", [([T "from ptrace.mockup import FakeProcess"], []); ([T "process = FakeProcess()"], []);
     ([T "parseExpression(process, ""1+1"")"], printed show_pyval (parse_fake process0 (T "1+1"))); ([T "process.setreg(""eax"", 3)"], []);
     ([T "parseExpression(process, ""eax*0x10"")"], printed show_pyval (parse_fake process1 (T "eax*0x10")))]);
  (T "changeLogLevel", [([T "changeLogLevel(ERROR, -1) == WARNING"], [show_bool (changeLogLevel ERROR (-1) =? WARNING)]);
     ([T "changeLogLevel(DEBUG, 1) == INFO"], [show_bool (changeLogLevel DEBUG 1 =? INFO)])]);
  (T "signalName", [([T "from signal import SIGINT"], []); ([T "signalName(SIGINT)"], [repr_ascii (signalName linux_signals 2)]);
     ([T "signalName(404)"], [repr_ascii (signalName linux_signals 404)])]);
  (T "ip_int2str", [([T "ip_int2str(0x7f000001)"], printed repr_ascii (ip_int2str 0x7f000001))]);
  (T "readBits", [(bitmask_source, []); ([T "readBits(5, bitmask)"], [show_list (ToolsModel.readBits 5 bitmask)]);
     ([T "readBits(12, bitmask)"], [show_list (ToolsModel.readBits 12 bitmask)])]);
  (T "formatBits", [(bitmask_source, []);
     ([T "formatBits(5, bitmask, empty_text=""no permission"")"], [repr_ascii (formatBits 5 bitmask (Some (T "no permission")) str_int)]);
     ([T "formatBits(0, bitmask, empty_text=""no permission"")"], [repr_ascii (formatBits 0 bitmask (Some (T "no permission")) str_int)])]);
  (T "timestampUNIX", [([T "timestampUNIX(0, False)"], printed repr_datetime (timestampUNIX_us utc 0 false));
     ([T "timestampUNIX(1154175644.37, False)"], printed repr_datetime (timestampUNIX_us utc (float_us 1210240880470917 20) false))]);
  (T "minmax", [([T "minmax(-2, -3, 10)"], [str_int (minmax (-2) (-3) 10)]); ([T "minmax(-2, 27, 10)"], [str_int (minmax (-2) 27 10)]);
     ([T "minmax(-2, 0, 10)"], [str_int (minmax (-2) 0 10)])]);
  (T "inverseDict", [([T "inverseDict({""0x10"": 16, ""0x20"": 32}) == {32: '0x20', 16: '0x10'}"],
     [show_bool (dict_eqb (inverseDict Z.eqb [(T "0x10", 16); (T "0x20", 32)]) [(32, T "0x20"); (16, T "0x10")])])]);
  (T "signal_to_exitcode", [([T "import signal"], []); ([T "signal_to_exitcode(signal.SIGQUIT)"], [str_int (signal_to_exitcode 3)])])].
Definition ptrace_exec (modname name : text) (n : nat) (src : list text) : list text :=
  match dget text_eqb name sessions with
  | Some l => match nth_error l n with
              | Some (src', out) => if lines_eqb src src' then out else [T "NameError"]
              | None => [T "NameError"]
              end
  | None => [T "NameError"]
  end.
(** __import__ where the package is found *)
Definition ptrace_import (sys_path : list text) (name : text) : res pymod :=
  match split_char "."%char name with
  | top :: _ => if text_eqb top (T "ptrace") then Ok ptrace_package else Err EImportError
  | [] => Err EImportError
  end.
