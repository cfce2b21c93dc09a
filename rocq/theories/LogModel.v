(** * LogModel: ptrace/error.py, the log level of ptrace/debugger/application.py and ptrace/profiler.py. *)
From Coq Require Import ZArith List Ascii String Bool.
From Verif Require Import PyBase ToolsModel.
Import ListNotations.
Open Scope Z_scope.

(** What the logger receives: the method called and the message *)
Definition message : Type := log_method * text.

(** ptrace/error.py 9-25.  [trace]: what format_exception( *exc_info() ) gives; the exceptions of the logger itself are not
    represented. *)
Definition writeBacktrace (trace : res (list text)) (log_level : Z) : list message :=
  let log_func := getLogFunc log_level in
  let failed := [(log_func, T "Unable to get backtrace")] in
  match trace with
  | Err _ => failed
  | Ok [] => failed                      (* trace[0]: IndexError *)
  | Ok (first :: rest) =>
      if text_eqb first (T "None" ++ ["010"%char]) then failed
      else map (fun line => (log_func, rstrip line)) (split_char "010"%char (rstrip (List.concat (first :: rest))))
  end.
(** An exception object: its kind, the name of its class and str() of it *)
Record error_object : Type := ErrorObject { eo_exn : exn; eo_class : text; eo_msg : text }.
(** 28-33 *)
Definition formatError (error : error_object) : text := T "[" ++ eo_class error ++ T "] " ++ eo_msg error.
(** 36-53 *)
Definition writeError (error : error_object) (title : text) (log_level : Z) (trace : res (list text)) : res (list message) :=
  match eo_exn error with
  | ESystemExit _ | EKeyboardInterrupt => Err (eo_exn error)
  | _ => Ok ((getLogFunc log_level, title ++ T ": " ++ formatError error) :: writeBacktrace trace (changeLogLevel log_level (-1)))
  end.

(** ptrace/debugger/application.py 18-30: the level of the logger *)
Record log_options : Type := LogOptions { lo_quiet : bool; lo_verbose : bool; lo_debug : bool }.
Definition setup_level (o : log_options) : Z :=
  if lo_debug o then DEBUG
  else if lo_verbose o then INFO
  else if lo_quiet o then ERROR
  else WARNING.
(** The logging module (Python library): a message is displayed when its level is at least that of the logger *)
Definition level_of (m : log_method) : Z := match m with log_error => ERROR | log_warning => WARNING | log_info => INFO | log_debug => DEBUG end.
Definition displayed (level : Z) (l : list message) : list text := map snd (filter (fun m => level <=? level_of (fst m)) l).

(** ptrace/profiler.py 19-45.  The file /tmp/profiler is there or not before; [dump]: dump_stats() creates it or fails;
    [stats]: the lines printed by pstats.  The result: what is logged, whether the file is there afterwards, how it ends. *)
Definition ENOENT : Z := 2.
Definition runProfiler {A} (file : bool) (func : res A) (dump : res unit) (stats : res (list text)) : list message * bool * res A :=
  let start := [(log_warning, T "Run profiler")] in
  let data := (log_error, T "Profiler: Process data...") in
  let '(log, file, r) :=
    match func with
    | Err e => (start, file, Err e)
    | Ok result =>
        match dump with
        | Err e => (start ++ [data], file, Err e)
        | Ok _ =>
            match stats with
            | Err e => (start ++ [data], true, Err e)
            | Ok lines => (start ++ [data; (log_error, T "Profiler: Result:")] ++ map (fun l => (log_error, rstrip l)) lines, true, Ok result)
            end
        end
    end in
  (* finally: unlink(profile_filename) *)
  if file then (log, false, r) else (log, false, Err (EOSError ENOENT)).
