(** * LogProps: C91, C92, C93, error reports, verbosity and the profiler. *)
From Coq Require Import ZArith List Ascii String Bool.
From Verif Require Import PyBase ToolsModel LogModel LogSpec LogProofs.
Import ListNotations.
Open Scope Z_scope.

(** ** C91: error reports *)
(** exit() and the interruption are never swallowed, and never written *)
Theorem c91_raised : forall error title level trace, ends_program (eo_exn error) = true -> writeError error title level trace = Err (eo_exn error).
Proof. exact error_raised. Qed.
Print Assumptions c91_raised.
Example c91_raised_ex : writeError (ErrorObject (ESystemExit 1) (T "SystemExit") (T "1")) (T "Debugger error") 40 (Ok [T "SystemExit: 1"]) = Err (ESystemExit 1).
Proof. reflexivity. Qed.
(** Every other error: its class and text, then the backtrace one level below *)
Theorem c91_written : forall error title level trace, ends_program (eo_exn error) = false ->
  writeError error title level trace = Ok ((getLogFunc level, title ++ T ": [" ++ eo_class error ++ T "] " ++ eo_msg error) :: writeBacktrace trace (Z.max 10 (Z.min 40 (level - 10)))).
Proof. exact error_written. Qed.
Print Assumptions c91_written.
(** The backtrace: one message per line, in order, without spaces at the end *)
Theorem c91_backtrace : forall lines trace level, traceback_lines lines -> List.concat trace = traceback_text lines -> hd_error trace <> Some (T "None" ++ [nl]) -> hd_error trace <> None ->
  writeBacktrace (Ok trace) level = map (fun l => (getLogFunc level, rstrip l)) lines.
Proof. exact backtrace_lines. Qed.
Print Assumptions c91_backtrace.
Theorem c91_trimmed : forall l, trimmed l (rstrip l).
Proof. exact rstrip_trimmed. Qed.
Print Assumptions c91_trimmed.
Theorem c91_never_empty : forall trace level, exists m l, writeBacktrace trace level = m :: l.
Proof. exact backtrace_never_empty. Qed.
Print Assumptions c91_never_empty.
(** Where Python knows no backtrace, this is what is written *)
Theorem c91_unknown : forall trace level,
  (exists e, trace = Err e) \/ trace = Ok [] \/ (exists rest, trace = Ok ((T "None" ++ [nl]) :: rest)) ->
  writeBacktrace trace level = [(getLogFunc level, T "Unable to get backtrace")].
Proof. exact backtrace_unknown. Qed.
Print Assumptions c91_unknown.
Example c91_backtrace_ex : traceback_lines (map T ["Traceback (most recent call last):"; "  File ""a.py"", line 1 "; "ValueError: no"]%string) /\
  writeError (ErrorObject EValueError (T "ValueError") (T "no")) (T "Debugger error") 40 (Ok [T "Traceback (most recent call last):" ++ [nl]; T "  File ""a.py"", line 1 " ++ [nl] ++ T "ValueError: no" ++ [nl]]) =
  Ok [(log_error, T "Debugger error: [ValueError] no"); (log_warning, T "Traceback (most recent call last):"); (log_warning, T "  File ""a.py"", line 1"); (log_warning, T "ValueError: no")].
Proof.
  split; [|vm_compute; reflexivity]. split; [repeat constructor; cbn; intuition discriminate|]. exists (map T ["Traceback (most recent call last):"; "  File ""a.py"", line 1 "]%string), (T "ValueError: n"), "o"%char. split; reflexivity.
Qed.

(** ** C92: verbosity *)
Theorem c92_seen : forall o error title trace l, writeError error title 40 trace = Ok l ->
  displayed (setup_level o) l = (title ++ T ": [" ++ eo_class error ++ T "] " ++ eo_msg error) :: (if lo_quiet o && negb (lo_verbose o) && negb (lo_debug o) then [] else map snd (writeBacktrace trace 30)).
Proof. exact error_seen. Qed.
Print Assumptions c92_seen.
Theorem c92_level : forall o, setup_level o = if lo_debug o then 10 else if lo_verbose o then 20 else if lo_quiet o then 40 else 30.
Proof. exact level_order. Qed.
Print Assumptions c92_level.
Example c92_seen_ex : displayed (setup_level (LogOptions true false false)) [(log_error, T "a"); (log_warning, T "b"); (log_debug, T "c")] = [T "a"] /\
  displayed (setup_level (LogOptions false false false)) [(log_error, T "a"); (log_warning, T "b"); (log_debug, T "c")] = [T "a"; T "b"] /\
  displayed (setup_level (LogOptions true false true)) [(log_error, T "a"); (log_warning, T "b"); (log_debug, T "c")] = [T "a"; T "b"; T "c"].
Proof. split; [|split]; reflexivity. Qed.

(** ** C93: the profiler *)
Theorem c93_result_partial : forall A file (r : A) lines, exists log, runProfiler file (Ok r) (Ok tt) (Ok lines) = (log, false, Ok r) /\
  map snd log = [T "Run profiler"; T "Profiler: Process data..."; T "Profiler: Result:"] ++ map rstrip lines.
Proof. exact profiler_works. Qed.
Print Assumptions c93_result_partial.
Theorem c93_removed : forall A file (f : res A) dump stats log file' r, runProfiler file f dump stats = (log, file', r) -> file' = false.
Proof. exact profiler_removes. Qed.
Print Assumptions c93_removed.
(** When the results can not be read, this error is reported; when they can not be written, only if there was a file before *)
Theorem c93_failed : forall A file (r : A) stats e, exists log,
  runProfiler file (Ok r) (Ok tt) (Err e) = (log, false, Err e) /\ map snd log = [T "Run profiler"; T "Profiler: Process data..."] /\
  runProfiler file (Ok r) (Err e) stats = (log, false, Err (if file then e else EOSError 2)).
Proof. exact profiler_failed. Qed.
Print Assumptions c93_failed.
(** An exception of the profiled function is replaced: there is no file to remove *)
Theorem c93_error : forall A e dump stats, runProfiler false (@Err A e) dump stats = ([(log_warning, T "Run profiler")], false, Err (EOSError 2)).
Proof. exact profiler_error. Qed.
Print Assumptions c93_error.
Theorem c93_error_refuted : exists e log, runProfiler false (@Err Z e) (Ok tt) (Ok []) = (log, false, Err (EOSError 2)) /\ e <> EOSError 2.
Proof. exact profiler_wrong. Qed.
Print Assumptions c93_error_refuted.
(** A file that was there before is removed although nothing was written *)
Theorem c93_foreign_refuted : exists log, runProfiler true (@Err Z EKeyboardInterrupt) (Ok tt) (Ok []) = (log, false, Err EKeyboardInterrupt).
Proof. exact profiler_foreign. Qed.
Print Assumptions c93_foreign_refuted.
