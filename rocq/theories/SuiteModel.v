(** * SuiteModel: the tests of strace.py (tests/test_strace.py). *)
From Coq Require Import ZArith List Ascii String Bool.
From Verif Require Import PyBase Platform RegexModel.
Import ListNotations.
Open Scope Z_scope.

(** re.compile('^' + r, re.MULTILINE).search(s): the first match at the beginning of a line *)
Definition at_line (before : text) : bool := match before with [] => true | c :: _ => Ascii.eqb c newline end.
Fixpoint msearch_from (r : regex) (before rest : text) : option rmatch :=
  match (if at_line before then match_at r (before, rest) else None) with
  | Some m => Some m
  | None => match rest with
            | [] => None
            | x :: rest => msearch_from r (x :: before) rest
            end
  end.
Definition msearch (r : regex) (s : text) : option rmatch := msearch_from r [] s.
Definition found (r : regex) (s : text) : bool := match msearch r s with Some _ => true | None => false end.

(** tests/test_strace.py 21: the arguments of strace.py *)
Definition test_args (temp : text) (program : list text) : list text := [T "-o"; temp; T "--"] ++ program.
(** tests/test_strace.py 31: re.match is at the beginning of the file only *)
Definition no_traceback (output : text) : bool := match re_match (RCat RBegin (rtext (T "Traceback"))) output with Some _ => false | None => true end.
(** tests/test_strace.py 34-41 *)
Definition assert_syscall (r : regex) (output : text) : bool := no_traceback output && found r output.
(** tests/test_strace.py 43-47 *)
Definition test_basic (output : text) : bool := no_traceback output && forallb (fun name => found (rtext name) output) [T "exit"; T "mmap"; T "open"].
(** tests/test_strace.py 49-52: for 0 and 1 *)
Definition test_exitcode (ec : Z) (output : text) (exitcode : Z) : bool := no_traceback output && (exitcode =? ec).
(** tests/test_strace.py 54-57 *)
Definition test_exitsignal (signum : Z) (output : text) (exitcode : Z) : bool := no_traceback output && (exitcode =? (127 + 1) + signum).
(** tests/test_strace.py 59-67.  [expected]: os.fsencode(repr(cwd)) *)
Definition re_getcwd : regex := rcat [rtext (T "getcwd("); RGroup 1 (RStar rdot); rchar ","%char].
Definition test_getcwd (expected output : text) : bool :=
  no_traceback output && match msearch re_getcwd output with
                         | Some m => match group 1 (m_groups m) with Some t => text_eqb t expected | None => false end
                         | None => false
                         end.
(** tests/test_strace.py 69-72 *)
Definition re_open : regex :=
  rcat [rtext (T "open"); ropt (RGroup 1 (rtext (T "at"))); rchar "("%char; RStar rdot; rtext (T "test_strace.py"); ropt (rchar "c"%char);
        rtext (T "', O_RDONLY"); ropt (RGroup 2 (rtext (T "|O_CLOEXEC")))].
(** tests/test_strace.py 74-76 *)
Definition re_chdir : regex := rcat [rtext (T "chdir('directory')"); rplus (RSet is_space); rtext (T "= -2 ENOENT")].
(** tests/test_strace.py 12-13: AARCH64, RISCV *)
Definition test_aarch64 (p : platform) : bool := match p_cpu p with AARCH64 => true | _ => false end.
Definition test_riscv (p : platform) : bool := is_riscv (p_cpu p).
(** tests/test_strace.py 78-85 *)
Definition re_rename (p : platform) : regex :=
  if test_riscv p then rcat [rtext (T "renameat2("); RStar rdot; rtext (T "'oldpath'"); RStar rdot; rtext (T "'newpath', 0)")]
  else if test_aarch64 p then rcat [rtext (T "renameat("); RStar rdot; rtext (T "'oldpath'"); RStar rdot; rtext (T "'newpath')")]
  else rtext (T "rename('oldpath', 'newpath')").
(** tests/test_strace.py 87-92 *)
Definition re_link (p : platform) : regex :=
  if test_aarch64 p || test_riscv p then rcat [rtext (T "linkat("); RStar rdot; rtext (T "'oldpath'"); RStar rdot; rtext (T "'newpath'"); RStar rdot; rchar ")"%char]
  else rtext (T "link('oldpath', 'newpath')").
(** tests/test_strace.py 94-105 *)
Definition re_symlink (p : platform) : regex :=
  if test_aarch64 p || test_riscv p then rcat [rtext (T "symlinkat("); RStar rdot; rtext (T "'target'"); RStar rdot; rtext (T "'linkpath')")]
  else rtext (T "symlink('target', 'linkpath')").
(** tests/test_strace.py 107-110 *)
Definition re_socket : regex := rcat [rtext (T "socket(AF_INET, SOCK_STREAM"); ropt (RGroup 1 (rtext (T "|SOCK_CLOEXEC")))].
