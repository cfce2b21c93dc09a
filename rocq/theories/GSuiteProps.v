(** * GSuiteProps: C138, the tests of gdb.py. *)
From Coq Require Import ZArith List Ascii String Bool Lia.
From Verif Require Import PyBase Platform IntModel RegexModel MapModel DbgModel TraceModel PyEval SigModel GdbModel ProcModel ProcSpec XrayModel SuiteModel OutSpec GSuiteModel GSuiteSpec GSuiteProofs GSuiteProofs2 GSuiteProofs3.
Import ListNotations.
Open Scope Z_scope.

(** The session: the prompt, what the command writes, the prompt again, and the end *)
Theorem c138_session : forall p ns dis show written env id command Q stdout, tested p ns dis show written env id command stdout -> one_command command -> writes p ns dis py_eval show written env id command Q ->
  exists out, Q out /\ stdout = PROMPT ++ out ++ PROMPT ++ newline :: written CQuit ++ T "Quit gdb." ++ [newline].
Proof. exact session_ok. Qed.
Print Assumptions c138_session.
(** What run_command() returns: what the command has written, without the spaces at the end; a traceback is an error; after a command that writes nothing the prompt and
    the last message are left, because the position 0 of the prompt is false. *)
Theorem c138_command : forall p ns dis show written env id command Q stdout, tested p ns dis show written env id command stdout -> one_command command -> writes p ns dis py_eval show written env id command Q ->
  exists out, Q out /\ (out <> [] -> ~ occurs (T "Traceback") out -> exists t, run_command 0 stdout = Ok t /\ without_end out t) /\
    (occurs (T "Traceback") out -> run_command 0 stdout = Err EAssertionError) /\
    (out = [] -> ~ occurs (T "Traceback") (written CQuit) -> run_command 0 stdout = Ok (PROMPT ++ newline :: written CQuit ++ T "Quit gdb.")).
Proof. exact command_ok. Qed.
Print Assumptions c138_command.
(** Without any prompt the last character is lost, because -1 is true; another status is an error. *)
Theorem c138_no_prompt : forall s, ~ occurs PROMPT s -> ~ occurs (T "Traceback") s -> run_command 0 s = Ok (bytes_rstrip (removelast s)).
Proof. exact result_no_prompt. Qed.
Print Assumptions c138_no_prompt.
Theorem c138_status : forall n s, n <> 0 -> run_command n s = Err EAssertionError.
Proof. exact result_status. Qed.
Print Assumptions c138_status.
(** A test succeeds if and only if gdb.py ends with status 0, no traceback is in what is returned, and all patterns are found in it (see c137_found). *)
Theorem c138_test : forall patterns n s, gdb_test patterns n s = true <-> n = 0 /\ exists t, run_command n s = Ok t /\ ~ occurs (T "Traceback") t /\ forall r, In r patterns -> found r t = true.
Proof. exact gdb_test_iff. Qed.
Print Assumptions c138_test.
(** bytes.rstrip() and bytes.rfind() *)
Theorem c138_rstrip : forall s, without_end s (bytes_rstrip s).
Proof. exact rstrip_spec. Qed.
Print Assumptions c138_rstrip.
Theorem c138_rfind : forall t s, (rfind t s = -1 /\ ~ occurs t s) \/
  exists a b, s = a ++ t ++ b /\ rfind t s = Z.of_nat (List.length a) /\ forall a' b', s = a' ++ t ++ b' -> (List.length a' <= List.length a)%nat.
Proof. exact rfind_spec. Qed.
Print Assumptions c138_rfind.

(** test_proc *)
Theorem c138_proc : forall p ns dis show written env id pid P repr lines stdout, running_linux p = true -> tested p ns dis show written env id (T "proc") stdout ->
  (forall h, env h (CDump (T "proc") id) = AUnit) -> dumpProcessInfo P repr p pid (Some 160) = Ok lines -> written (CDump (T "proc") id) = text_of_lines lines ->
  readable P repr pid -> 0 <= pid -> ~ occurs (T "Traceback") (text_of_lines lines) -> gdb_test proc_patterns 0 stdout = true.
Proof. exact proc_ok. Qed.
Print Assumptions c138_proc.
(** test_print: nothing is mapped at the address 3 *)
Theorem c138_print : forall p ns dis show written env id stdout, tested p ns dis show written env id (T "print 1+2") stdout ->
  (forall h, exists maps, env h (CMappings id) = AMaps maps /\ Forall (fun m => ~ (mp_start m <= 3 < mp_end m)) maps) -> written (CMappings id) = [] -> gdb_test print_patterns 0 stdout = true.
Proof. exact print_ok. Qed.
Print Assumptions c138_print.
(** test_where: with a disassembler, or if the code can be read *)
Theorem c138_where : forall p ns dis show written env id D read bps ip log r stdout, tested p ns dis show written env id (T "where") stdout ->
  (forall h, env h (CDumpCode id None None false) = AUnit) -> dumpCode p D read bps (Ok ip) None None false = (log, r) ->
  written (CDumpCode id None None false) = text_of_lines (log_lines log) -> D <> None \/ (exists code, read ip 32 = Ok code) ->
  ~ occurs (T "Traceback") (text_of_lines (log_lines log)) -> gdb_test where_patterns 0 stdout = true.
Proof. exact where_ok. Qed.
Print Assumptions c138_where.
(** test_regs, test_backtrace: nothing is checked but the absence of a traceback *)
Theorem c138_dumps : forall p ns dis show written env id what out stdout, In what ["regs"; "backtrace"]%string -> tested p ns dis show written env id (T what) stdout ->
  (forall h, env h (CDump (T what) id) = AUnit) -> written (CDump (T what) id) = out -> out <> [] -> ~ occurs (T "Traceback") out -> gdb_test [] 0 stdout = true.
Proof. exact dump_ok. Qed.
Print Assumptions c138_dumps.
(** test_maps *)
Theorem c138_maps : forall p ns dis show written env id maps stdout, tested p ns dis show written env id (T "maps") stdout -> (forall h, env h (CDump (T "maps") id) = AUnit) ->
  written (CDump (T "maps") id) = text_of_lines (dumpMaps p maps) -> maps <> [] -> ~ occurs (T "Traceback") (text_of_lines (dumpMaps p maps)) -> gdb_test maps_patterns 0 stdout = true.
Proof. exact maps_ok. Qed.
Print Assumptions c138_maps.
(** test_dbginfo *)
Theorem c138_dbginfo : forall p ns dis show written env id getpid stdout, tested p ns dis show written env id (T "dbginfo") stdout -> (forall h, env h (CDump (T "dbginfo") id) = AUnit) ->
  written (CDump (T "dbginfo") id) = text_of_lines (debuggerInfo getpid) -> 0 <= getpid -> gdb_test dbginfo_patterns 0 stdout = true.
Proof. exact dbginfo_ok. Qed.
Print Assumptions c138_dbginfo.
(** Sessions, the tests on them and on the wrong sessions, and a command that writes nothing *)
Example c138_ex :
  Forall (fun c => tested linux_x86_64 [] false (fun _ => []) written_ex (env_ex c) 1 c (stdout_ex c) /\ one_command c) [T "print 1+2"; T "where"; T "maps"; T "dbginfo"; T "regs"; T "resetfollow"] /\
  Forall (fun m => ~ (mp_start m <= 3 < mp_end m)) ex_maps /\
  stdout_ex (T "print 1+2") = T "(gdb) " ++ T "Decimal: 3" ++ [newline] ++ T "Hexadecimal: 0x0000000000000003" ++ [newline] ++ T "(gdb) " ++ [newline] ++ T "Quit gdb." ++ [newline] /\
  map (fun x => gdb_test (fst x) 0 (stdout_ex (snd x))) [(print_patterns, T "print 1+2"); (where_patterns, T "where"); (maps_patterns, T "maps"); (dbginfo_patterns, T "dbginfo"); ([], T "regs")] = repeat true 5 /\
  map (fun r => gdb_test r 0 (stdout_ex (T "regs"))) [print_patterns; where_patterns; maps_patterns; dbginfo_patterns; proc_patterns] = repeat false 5 /\
  gdb_test proc_patterns 0 (T "(gdb) " ++ text_of_lines [T "Process ID: 7 (parent: 1)"; T "Process state: S (sleeping)"; T "Process environment: "; T "User identifier: 1000"; T "Group identifier: 5"] ++ T "(gdb) ") = true /\
  run_command 0 (stdout_ex (T "resetfollow")) = Ok (T "(gdb) " ++ [newline] ++ T "Quit gdb.") /\
  run_command 0 (T "abc") = Ok (T "ab") /\ run_command 0 (T "Traceback (most recent call last):") = Err EAssertionError.
Proof.
  split; [do 6 (apply Forall_cons; [split; [apply tested_ex; vm_compute; reflexivity|apply one_command_b; reflexivity]|]); apply Forall_nil|]. split; [apply Forall_cons; [cbn; lia|apply Forall_nil]|]. repeat split; vm_compute; reflexivity.
Qed.
