(** * GSuiteModel: what gdb.py writes, and its tests (tests/test_gdb.py). *)
From Coq Require Import ZArith List Ascii String Bool.
From Verif Require Import PyBase RegexModel GdbModel SuiteModel.
Import ListNotations.
Open Scope Z_scope.

(** gdb.py 861 *)
Definition PROMPT : text := T "(gdb) ".
(** What gdb.py writes to its standard output and error, which are one pipe (tests/test_gdb.py 19-22): the messages (gdb.py 149-150; application.py 18-21),
    the prompt (gdb.py 794), the end of the line after the end of the input (gdb.py 796), and what the calls of the library write.  [show]: the text of a message
    with objects; [written]: what another call writes. *)
Section Output.
  Context (show : gline -> text) (written : gcall -> text).
  Definition call_text (x : gcall * ans) : text :=
    match x with
    | (CLog (LText t), _) => t ++ [newline]
    | (CLog l, _) => show l ++ [newline]
    | (CInput, AEof) => PROMPT ++ [newline]
    | (CInput, _) => PROMPT
    | (c, _) => written c
    end.
  Definition gdb_stdout (h : list (gcall * ans)) : text := flat_map call_text (rev h).
End Output.

(** bytes.rstrip() *)
Definition is_byte_space (c : ascii) : bool := in_range 9 13 c || Ascii.eqb c " "%char.
Fixpoint drop_spaces (s : text) : text := match s with [] => [] | c :: s' => if is_byte_space c then drop_spaces s' else s end.
Definition bytes_rstrip (s : text) : text := rev (drop_spaces (rev s)).
(** s.rfind(p) *)
Fixpoint rfind (p s : text) : Z :=
  let later := match s with [] => -1 | _ :: s => let n := rfind p s in if n =? -1 then -1 else n + 1 end in
  if negb (later =? -1) then later else if starts_with p s then 0 else -1.
(** s[:n] *)
Definition slice_to (n : Z) (s : text) : text := firstn (Z.to_nat (if n <? 0 then Z.of_nat (List.length s) + n else n)) s.
(** tests/test_gdb.py 13-34, from the output and the exit code *)
Definition run_command (exitcode : Z) (stdout : text) : res text :=
  if negb (exitcode =? 0) then Err EAssertionError
  else
    let stdout := if starts_with PROMPT stdout then skipn 6 stdout else stdout in
    let pos := rfind PROMPT stdout in
    let stdout := if negb (pos =? 0) then slice_to pos stdout else stdout in
    let stdout := bytes_rstrip stdout in
    if contains (T "Traceback") stdout then Err EAssertionError else Ok stdout.
(** tests/test_gdb.py 36-38, 47-48 *)
Definition check_stdout (patterns : list regex) (stdout : text) : bool := forallb (fun r => found r stdout) patterns.
Definition rdigits : regex := rplus (RSet is_digit).
(** tests/test_gdb.py 40-48 *)
Definition proc_patterns : list regex :=
  [RCat (rtext (T "Process ID: ")) rdigits; rtext (T "Process state: "); rtext (T "Process environment: ");
   RCat (rtext (T "User identifier: ")) rdigits; RCat (rtext (T "Group identifier: ")) rdigits].
(** tests/test_gdb.py 50-52, 54-56, 66-68 *)
Definition print_patterns : list regex := [rtext (T "Decimal: 3" ++ [newline])].
Definition where_patterns : list regex := [rtext (T "CODE:")].
Definition maps_patterns : list regex := [rtext (T "MAPS: ")].
(** tests/test_gdb.py 70-74 *)
Definition dbginfo_patterns : list regex :=
  [RCat (rtext (T "Debugger process ID: ")) rdigits; rcat [rtext (T "python-ptrace version "); rdigits; rchar "."%char; rdigits]; rtext (T "Website: ")].
(** A test: the command is run and its output is checked. *)
Definition gdb_test (patterns : list regex) (exitcode : Z) (stdout : text) : bool :=
  match run_command exitcode stdout with Ok t => check_stdout patterns t | Err _ => false end.
