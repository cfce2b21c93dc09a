(** * SuiteProps: C137, the tests of strace.py. *)
From Coq Require Import ZArith List Ascii String Bool Lia.
From Verif Require Import PyBase Platform IntModel SigModel TabModel ArgModel ArgProofs3 DbgModel DbgSpec SysModel SysProofs3 StraceModel StorySpec OutSpec OutModel SuiteModel SuiteSpec RegexModel RegexSpec SuiteProofs4 SuiteProofs5 SuiteProofs6 SuiteProofs7 SuiteProofs8.
Import ListNotations.
Open Scope Z_scope.

(** test_chdir: the call, its argument, spaces and the error are found. *)
Theorem c137_chdir : forall p ns repr_fs errorcode strerror pid x l acts e output status, strace_run p ns repr_fs errorcode strerror pid x l acts e output status ->
  forall a b, makes p acts (T "chdir") [a] b -> name_at repr_fs b a (T "directory") -> returns p b (-2) -> dget Z.eqb 2 errorcode = Some (T "ENOENT") -> assert_syscall re_chdir output = true.
Proof. exact chdir_ok. Qed.
Print Assumptions c137_chdir.
(** test_rename, test_link, test_symlink: with the calls of the architecture *)
Theorem c137_rename : forall p ns repr_fs errorcode strerror pid x l acts e output status, strace_run p ns repr_fs errorcode strerror pid x l acts e output status ->
  forall d1 o d2 n b, makes p acts (fst (rename_call (p_cpu p) d1 o d2 n)) (snd (rename_call (p_cpu p) d1 o d2 n)) b ->
  name_at repr_fs b o (T "oldpath") -> name_at repr_fs b n (T "newpath") -> assert_syscall (re_rename p) output = true.
Proof. exact rename_ok. Qed.
Print Assumptions c137_rename.
Theorem c137_link : forall p ns repr_fs errorcode strerror pid x l acts e output status, strace_run p ns repr_fs errorcode strerror pid x l acts e output status ->
  forall d1 o d2 n flags b, makes p acts (fst (link_call (p_cpu p) d1 o d2 n flags)) (snd (link_call (p_cpu p) d1 o d2 n flags)) b ->
  name_at repr_fs b o (T "oldpath") -> name_at repr_fs b n (T "newpath") -> assert_syscall (re_link p) output = true.
Proof. exact link_ok. Qed.
Print Assumptions c137_link.
Theorem c137_symlink : forall p ns repr_fs errorcode strerror pid x l acts e output status, strace_run p ns repr_fs errorcode strerror pid x l acts e output status ->
  forall o d n b, makes p acts (fst (symlink_call (p_cpu p) o d n)) (snd (symlink_call (p_cpu p) o d n)) b ->
  name_at repr_fs b o (T "target") -> name_at repr_fs b n (T "linkpath") -> assert_syscall (re_symlink p) output = true.
Proof. exact symlink_ok. Qed.
Print Assumptions c137_symlink.
(** test_open: the file of the test, or its bytecode, is opened for reading by open() or openat(). *)
Theorem c137_open : forall p ns repr_fs errorcode strerror pid x l acts e output status, strace_run p ns repr_fs errorcode strerror pid x l acts e output status ->
  forall b d f flags mode dir suffix, makes p acts (T "open") [f; flags; mode] b \/ makes p acts (T "openat") [d; f; flags; mode] b -> suffix = [] \/ suffix = T "c" -> one_line dir ->
  name_at repr_fs b f (dir ++ T "test_strace.py" ++ suffix) -> Z.testbit flags 0 = false -> Z.testbit flags 1 = false -> assert_syscall re_open output = true.
Proof. exact open_ok. Qed.
Print Assumptions c137_open.
(** test_socket: AF_INET is 2; SOCK_STREAM is 1, with SOCK_CLOEXEC (0x80000) or not *)
Theorem c137_socket : forall p ns repr_fs errorcode strerror pid x l acts e output status, strace_run p ns repr_fs errorcode strerror pid x l acts e output status ->
  forall ty proto b, makes p acts (T "socket") [2; ty; proto] b -> ty = 1 \/ ty = 1 + 0x80000 -> assert_syscall re_socket output = true.
Proof. exact socket_ok. Qed.
Print Assumptions c137_socket.
(** test_getcwd: the group is the directory, whatever is in its name but the end of a line, if this is the first call of getcwd() and no line before it is broken. *)
Theorem c137_getcwd : forall p ns repr_fs errorcode strerror pid x l acts1 a b acts2 e output status ptr size cwd n before,
  strace_run p ns repr_fs errorcode strerror pid x l (acts1 ++ ACall a b :: acts2) e output status ->
  entered p a (T "getcwd") [ptr; size] -> text_at b ptr cwd -> one_line (repr_fs cwd) -> returns p b n -> 0 <= n ->
  lines_before p ns repr_fs errorcode strerror pid x l acts1 before -> Forall (fun t => one_line t /\ starts_with (T "getcwd(") t = false) before ->
  test_getcwd (repr_fs cwd) output = true.
Proof. exact getcwd_ok. Qed.
Print Assumptions c137_getcwd.
(** test_basic: calls whose names begin with mmap, open and exit are made, and the program ends inside the last. *)
Theorem c137_basic : forall p ns repr_fs errorcode strerror pid x l acts e output status, strace_run p ns repr_fs errorcode strerror pid x l acts e output status ->
  forall a1 b1 n1 a2 b2 n2 a3 z m n3, In (ACall a1 b1) acts -> entered p a1 (T "mmap" ++ n1) [] -> In (ACall a2 b2) acts -> entered p a2 (T "open" ++ n2) [] ->
  e = EndedInside a3 z m -> entered p a3 (T "exit" ++ n3) [] -> test_basic output = true.
Proof. exact basic_ok. Qed.
Print Assumptions c137_basic.
(** test_exitcode, test_exitsignal: they hold if and only if the status of strace.py is that of the program. *)
Theorem c137_exitcode : forall p ns repr_fs errorcode strerror pid x l acts e output status, strace_run p ns repr_fs errorcode strerror pid x l acts e output status ->
  forall ec c, meaning e = Exited c -> (test_exitcode ec output status = true <-> ec = c).
Proof. exact exitcode_iff. Qed.
Print Assumptions c137_exitcode.
Theorem c137_exitsignal : forall p ns repr_fs errorcode strerror pid x l acts e output status, strace_run p ns repr_fs errorcode strerror pid x l acts e output status ->
  forall signum a s core, acts = a ++ [ASignal s] -> meaning e = Killed s core -> 0 <= s < 128 -> (test_exitsignal signum output status = true <-> signum = s).
Proof. exact exitsignal_iff. Qed.
Print Assumptions c137_exitsignal.
(** What a search with '^' and re.MULTILINE finds: exactly an occurrence at the beginning of a line *)
Theorem c137_found : forall r s, found r s = true <-> exists before w after c, s = before ++ w ++ after /\ (before = [] \/ exists b, before = b ++ [z2b 10]) /\ den r (rev before) w after [] c.
Proof. exact found_iff. Qed.
Print Assumptions c137_found.
Theorem c137_found_text : forall t s, found (rtext t) s = true <-> has_line s t.
Proof. exact found_text_iff. Qed.
Print Assumptions c137_found_text.
(** A program that makes all these calls and exits with 1, one that is killed by SIGQUIT, and what the expressions find and do not find *)
Example c137_ex :
  strace_run linux_x86_64 no_names repr_ascii ENOENT_only strerror_ex 100 (T "/bin/x") [T "y"] suite_acts suite_end suite_output 1 /\
  strace_run linux_x86_64 no_names repr_ascii ENOENT_only strerror_ex 100 (T "/bin/x") [T "y"] [ASignal 3] (Ended (Killed 3 true)) quit_output 131 /\
  ((exists b, makes linux_x86_64 suite_acts (T "chdir") [100] b /\ name_at repr_ascii b 100 (T "directory") /\ returns linux_x86_64 b (-2)) /\
   (exists b, makes linux_x86_64 suite_acts (T "rename") [200; 300] b /\ name_at repr_ascii b 200 (T "oldpath") /\ name_at repr_ascii b 300 (T "newpath")) /\
   (exists b, makes linux_x86_64 suite_acts (T "symlink") [400; 500] b /\ name_at repr_ascii b 400 (T "target") /\ name_at repr_ascii b 500 (T "linkpath")) /\
   (exists b, makes linux_x86_64 suite_acts (T "openat") [2 ^ 32 - 100; 700; 0x80000; 0] b /\ name_at repr_ascii b 700 (T "/tmp/" ++ T "test_strace.py")) /\
   (exists b, makes linux_x86_64 suite_acts (T "socket") [2; 1 + 0x80000; 0] b)) /\
  (exists acts2 b before, suite_acts = suite_front ++ ACall b b :: acts2 /\ entered linux_x86_64 b (T "getcwd") [600; 1024] /\ text_at b 600 (T "/home, etc") /\ one_line (repr_ascii (T "/home, etc")) /\
     returns linux_x86_64 b 11 /\ lines_before linux_x86_64 no_names repr_ascii ENOENT_only strerror_ex 100 (T "/bin/x") [T "y"] suite_front before /\
     Forall (fun t => one_line t /\ starts_with (T "getcwd(") t = false) before) /\
  test_basic suite_output && test_exitcode 1 suite_output 1 && test_getcwd (T "'/home, etc'") suite_output && assert_syscall re_open suite_output && assert_syscall re_chdir suite_output &&
    assert_syscall (re_rename linux_x86_64) suite_output && assert_syscall (re_link linux_x86_64) suite_output && assert_syscall (re_symlink linux_x86_64) suite_output && assert_syscall re_socket suite_output &&
    test_exitsignal 3 quit_output 131 = true /\
  map (fun r => assert_syscall r quit_output) [re_open; re_chdir; re_rename linux_x86_64; re_link linux_x86_64; re_symlink linux_x86_64; re_socket; re_getcwd] = repeat false 7 /\
  test_getcwd (T "'/home'") suite_output = false /\ assert_syscall (re_rename (Platform Linux AARCH64 false true)) suite_output = false /\
  no_traceback (T "Traceback (most recent call last):") = false /\ no_traceback (text_of_lines [T "execve()"; T "Traceback (most recent call last):"]) = true.
Proof.
  split; [exact suite_run|]. split; [exact quit_run|]. split; [exact suite_calls|]. split; [exact suite_getcwd|]. repeat split; vm_compute; reflexivity.
Qed.
