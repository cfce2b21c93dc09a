(** * OutProps: C134, where the output of strace.py goes. *)
From Coq Require Import ZArith List Ascii String Bool.
From Verif Require Import PyBase Platform ToolsModel LogModel DbgModel StraceModel DbgFinal2 StraceProofs StraceProofs2 StraceProofs3 StraceProofs4 CmdModel CmdSpec OutModel OutSpec OutProofs OutProofs2.
Import ListNotations.
Open Scope Z_scope.

(** --output: the file has the lines of the trace and nothing else, even if it was there before; no other file and no stream gets any. *)
Theorem c134_file : forall p compile locate (traced : soptions -> list text -> tstate * out (option Z)) show open_w profile dump stats items program files o only values path, Forall strace_item items ->
  strace_parse p compile locate (flat_map render items ++ T "--" :: program) = Ok (Run (o, only, values)) ->
  given "--profiler" items = false -> last_str "--output -o" items None = Some path -> path <> [] -> open_w path = Ok tt ->
  let (st, r) := traced o only in
  let u := strace_program p compile locate traced show open_w profile dump stats (flat_map render items ++ T "--" :: program) files in
  content (u_files u) path = Some (trace_text (shown_with items show) st) /\ same_but path files (u_files u) /\
  u_stderr u = [] /\ u_printed u = [] /\ u_started u = true /\ u_status u = exit_status r /\ (u_closed u = true <-> exists code, r = Ret code).
Proof. exact to_file. Qed.
Print Assumptions c134_file.
(** Without it (or with an empty name) they are on stderr and no file is written. *)
Theorem c134_stderr : forall p compile locate (traced : soptions -> list text -> tstate * out (option Z)) show open_w profile dump stats items program files o only values, Forall strace_item items ->
  strace_parse p compile locate (flat_map render items ++ T "--" :: program) = Ok (Run (o, only, values)) ->
  given "--profiler" items = false -> (forall c t, last_str "--output -o" items None <> Some (c :: t)) ->
  let (st, r) := traced o only in
  let u := strace_program p compile locate traced show open_w profile dump stats (flat_map render items ++ T "--" :: program) files in
  u_stderr u = trace_text (shown_with items show) st /\ u_files u = files /\ u_printed u = [] /\ u_started u = true /\ u_status u = exit_status r.
Proof. exact to_stderr. Qed.
Print Assumptions c134_stderr.
(** The option changes nothing but the place. *)
Theorem c134_same : forall p compile locate (traced : soptions -> list text -> tstate * out (option Z)) show open_w profile dump stats items program files o only values name path, Forall strace_item items ->
  strace_parse p compile locate (flat_map render items ++ T "--" :: program) = Ok (Run (o, only, values)) ->
  last_str "--output -o" items None = None -> one_of "--output -o" name = true -> path <> [] -> open_w path = Ok tt ->
  let u := strace_program p compile locate traced show open_w profile dump stats (flat_map render items ++ T "--" :: program) files in
  let v := strace_program p compile locate traced show open_w profile dump stats (flat_map render (items ++ [IStr name path]) ++ T "--" :: program) files in
  content (u_files v) path = Some (u_stderr u) /\ same_but path files (u_files v) /\ u_files u = files /\ u_stderr v = [] /\
  u_started u = true /\ u_started v = true /\ u_status u = u_status v /\ u_printed u = u_printed v.
Proof. exact same_elsewhere. Qed.
Print Assumptions c134_same.
(** A command line that does not run a program: no file is touched, nothing is traced. *)
Theorem c134_not_started : forall p compile locate (traced : soptions -> list text -> tstate * out (option Z)) show open_w profile dump stats args files,
  (forall o only values, strace_parse p compile locate args <> Ok (Run (o, only, values))) ->
  let u := strace_program p compile locate traced show open_w profile dump stats args files in
  u_files u = files /\ u_stderr u = [] /\ u_started u = false /\ u_closed u = false /\
  match strace_parse p compile locate args with Ok (Exit code lines) => u_printed u = lines /\ u_status u = code mod 256 | _ => u_printed u = [] /\ u_status u = 1 end.
Proof. exact not_started. Qed.
Print Assumptions c134_not_started.
(** A file that can not be opened: the program is not started, the status is 1. *)
Theorem c134_unwritable : forall p compile locate (traced : soptions -> list text -> tstate * out (option Z)) show open_w profile dump stats items program files o only values c t e, Forall strace_item items ->
  strace_parse p compile locate (flat_map render items ++ T "--" :: program) = Ok (Run (o, only, values)) ->
  last_str "--output -o" items None = Some (c :: t) -> open_w (c :: t) = Err e ->
  strace_program p compile locate traced show open_w profile dump stats (flat_map render items ++ T "--" :: program) files = Outcome files [] [] false false 1.
Proof. exact unwritable. Qed.
Print Assumptions c134_unwritable.
(** --quiet, --verbose and --debug do not change the trace, unless an error with a backtrace is in it. *)
Theorem c134_level : forall p compile locate (traced : soptions -> list text -> tstate * out (option Z)) show open_w profile dump stats items more program files o only values, Forall strace_item items -> Forall level_option more ->
  strace_parse p compile locate (flat_map render items ++ T "--" :: program) = Ok (Run (o, only, values)) ->
  given "--profiler" items = false -> only_errors show (fst (traced o only)) ->
  strace_program p compile locate traced show open_w profile dump stats (flat_map render (items ++ more) ++ T "--" :: program) files =
  strace_program p compile locate traced show open_w profile dump stats (flat_map render items ++ T "--" :: program) files.
Proof. exact level_irrelevant. Qed.
Print Assumptions c134_level.
(** --profiler adds lines before and after the trace, in the same place; the status is that of the program unless the profiler fails. *)
Theorem c134_profiler : forall p compile locate (traced : soptions -> list text -> tstate * out (option Z)) show open_w profile dump stats items program files o only values, Forall strace_item items ->
  strace_parse p compile locate (flat_map render items ++ T "--" :: program) = Ok (Run (o, only, values)) ->
  given "--profiler" items = true -> (forall name, open_w name = Ok tt) ->
  let (st, r) := traced o only in let (before, after) := profiler_lines items r dump stats in
  let u := strace_program p compile locate traced show open_w profile dump stats (flat_map render items ++ T "--" :: program) files in
  let t := text_of_lines before ++ trace_text (shown_with items show) st ++ text_of_lines after in
  u_started u = true /\
  match last_str "--output -o" items None with
  | Some (c :: name) => content (u_files u) (c :: name) = Some t /\ same_but (c :: name) files (u_files u) /\ u_stderr u = []
  | _ => u_files u = files /\ u_stderr u = t
  end /\
  match r, dump, stats with
  | Ret _, Ok _, Ok _ => u_status u = exit_status r
  | Raise _, _, _ => u_status u = (if profile then exit_status r else 1)
  | _, _, _ => profile = true -> u_status u = match match dump with Err e => e | Ok _ => match stats with Err e => e | Ok _ => EUndefined end end with ESystemExit code => code mod 256 | _ => 1 end
  end.
Proof. exact profiler_run. Qed.
Print Assumptions c134_profiler.
Example c134_ex :
  let items := [IFlag (T "--show-pid"); IStr (T "-o") (T "log")] in
  let traced o only := trace_of o only closes (scripted close_exit) in
  let run l := strace_program linux_x86_64 (fun _ => Err EUndefined) (fun t => T "/bin/" ++ t) traced (fun _ => []) (fun _ => Ok tt) false (Ok tt) (Ok [T "1 call  "])
                 (flat_map render l ++ [T "--"; T "true"]) [(T "log", T "old"); (T "other", T "x")] in
  let lines := text_of_lines [T "execve(/bin/true, ['/bin/true'], [/* 40 vars */]) = 100"; T "[100] close(7)                                 = 0"; T "*** Process 100 exited with code 3 ***"] in
  Forall strace_item items /\ Forall level_option [IFlag (T "-q"); IFlag (T "--debug")] /\
  run items = Outcome [(T "log", lines); (T "other", T "x")] [] [] true true 3 /\
  run [IFlag (T "--show-pid")] = Outcome [(T "log", T "old"); (T "other", T "x")] lines [] true false 3 /\
  run [IFlag (T "--show-pid"); IFlag (T "--profiler"); IFlag (T "-q")] = Outcome [(T "log", T "old"); (T "other", T "x")]
    (lines ++ text_of_lines [T "Profiler: Process data..."; T "Profiler: Result:"; T "1 call"]) [] true false 3 /\
  run [IStr (T "-e") (T "nothing,open"); IStr (T "-o") (T "log")] = Outcome [(T "log", T "old"); (T "other", T "x")] [] [T "ERROR: unknown syscall 'nothing'"; []; T "Use --list-syscalls options to get system calls list"] false false 1.
Proof.
  cbv zeta. split; [repeat constructor|]. split; [apply Forall_cons; [|apply Forall_cons; [|apply Forall_nil]]; eexists; (split; [reflexivity|vm_compute; reflexivity])|].
  repeat split; vm_compute; reflexivity.
Qed.
