(** * ProcModel: the proc directory of Linux (ptrace/linux_proc.py) and dumpProcessInfo (ptrace/process_tools.py).
    Simplifications: error messages are dropped; [getUptime] (a float) is not modelled. *)
From Coq Require Import ZArith List Ascii String Bool.
From Verif Require Import PyBase PyInt Platform RegexModel MapModel.
Import ListNotations.
Open Scope Z_scope.

Definition NUL : ascii := z2b 0.
Definition TAB : ascii := z2b 9.

(** The proc file system seen by the library.  [pc_file pid key]: open("/proc/<pid>/<key>") and read(), the bytes or
    the OSError; [pc_link]: readlink; [pc_listdir]: listdir("/proc"); [pc_stat]: the file /proc/stat;
    [pc_decode]: the encoding of the locale; [pc_page]: getpagesize(). *)
Record proc : Type := Proc {
  pc_file : Z -> text -> res (list byte);
  pc_link : Z -> text -> res text;
  pc_listdir : list text;
  pc_stat : res (list byte);
  pc_decode : list byte -> res text;
  pc_page : Z
}.

(** except IOError / OSError -> raise ProcError: the handlers of ptrace/linux_proc.py 29-32, 47-53, 139-142 *)
Definition as_proc_error {A} (m : res A) : res A :=
  match m with Err (EOSError _) => Err EProcError | _ => m end.

(** ** ptrace/linux_proc.py 56-98 ProcessState *)
Record pstate : Type := PState {
  ps_pid : Z; ps_program : text; ps_state : text; ps_ppid : Z; ps_pgrp : Z; ps_session : Z; ps_tty_nr : Z; ps_tpgid : Z;
  ps_utime : Z; ps_stime : Z; ps_starttime : Z
}.
(** 71-78 *)
Definition STATE_NAMES : list (text * text) :=
  [(T "R", T "running"); (T "S", T "sleeping"); (T "D", T "disk"); (T "Z", T "zombie"); (T "T", T "traced"); (T "W", T "paging")].
(** stat[i] *)
Definition item {A} (l : list A) (i : nat) : res A := match nth_error l i with Some x => Ok x | None => Err EIndexError end.
(** 80-98.  A failed unpacking raises ValueError. *)
Definition processState (stat : text) : res pstate :=
  match rsplit1 ")"%char stat with
  | None => Err EValueError
  | Some (part, stat) =>
      match split1 "("%char part with
      | None => Err EValueError
      | Some (pid, program) =>
          do pid <- py_int 10 pid;
          let stat := split_ws stat in
          do state <- item stat 0;
          do stat <- mapM (py_int 10) (skipn 1 stat);
          do ppid <- item stat 0;
          do pgrp <- item stat 1;
          do session <- item stat 2;
          do tty_nr <- item stat 3;
          do tpgid <- item stat 4;
          do utime <- item stat 10;
          do stime <- item stat 11;
          do starttime <- item stat 18;
          Ok (PState pid program state ppid pgrp session tty_nr tpgid utime stime starttime)
      end
  end.

Section Proc.
  Context (P : proc).
  (** 44-53: open() and read() are both in the try block *)
  Definition readProcessProc (pid : Z) (key : text) : res text :=
    do data <- as_proc_error (pc_file P pid key);
    text_of (pc_decode P) data.
  (** 101-106 *)
  Definition readProcessStat (pid : Z) : res pstate :=
    do stat <- readProcessProc pid (T "stat");
    processState stat.
  (** 109-117 *)
  Definition readProcessStatm (pid : Z) : res (list Z) :=
    do statm <- readProcessProc pid (T "statm");
    mapM (fun item => do n <- py_int 10 item; Ok (n * pc_page P)) (split_ws statm).
  (** 120-131.  data.split never gives an empty list. *)
  Definition readProcessProcList (pid : Z) (key : text) : res (list text) :=
    do data <- readProcessProc pid key;
    match data with
    | [] => Ok []
    | _ =>
        let data := split_char NUL data in
        match rev data with
        | [] :: before => Ok (rev before)
        | _ => Ok data
        end
    end.
  (** 134-142 *)
  Definition readProcessLink (pid : Z) (key : text) : res text := as_proc_error (pc_link P pid key).
  (** 145-157: the generator as a list *)
  Definition readProcesses : list Z :=
    flat_map (fun filename => match py_int 10 filename with Ok pid => [pid] | Err _ => [] end) (pc_listdir P).
  (** 160-181.  Result [None]: the function returns None. *)
  Definition cmdline_stat (pid : Z) (escape_stat : bool) : res (option (list text)) :=
    match readProcessStat pid with
    | Ok stat =>
        let program := ps_program stat in
        let program := if escape_stat then T "[" ++ program ++ T "]" else program in
        Ok (Some [program])
    | Err EProcError => Ok None
    | Err e => Err e
    end.
  Definition readProcessCmdline (pid : Z) (escape_stat : bool) : res (option (list text)) :=
    match readProcessProcList pid (T "cmdline") with
    | Ok (a :: l) => Ok (Some (a :: l))
    | Ok [] | Err EProcError => cmdline_stat pid escape_stat
    | Err e => Err e
    end.
  (** 184-203: the identifiers yielded, and how the generator ends *)
  Fixpoint search_pids (process_name : text) (pids : list Z) : list Z * res unit :=
    match pids with
    | [] => ([], Ok tt)
    | pid :: pids =>
        match readProcessCmdline pid true with
        | Err e => ([], Err e)
        | Ok (Some (program :: _)) =>
            let '(found, r) := search_pids process_name pids in
            if text_eqb program process_name || ends_with (T "/" ++ process_name) program then (pid :: found, r) else (found, r)
        | Ok _ => search_pids process_name pids
        end
    end.
  Definition searchProcessesByName (process_name : text) : list Z * res unit := search_pids process_name readProcesses.
  (** 206-214 *)
  Definition searchProcessByName (process_name : text) : res Z :=
    match searchProcessesByName process_name with
    | (pid :: _, _) => Ok pid
    | ([], Err e) => Err e
    | ([], Ok _) => Err EProcError
    end.
  (** 227-242: the seconds of btime; the conversion to a date (timestampUNIX) is not modelled *)
  Fixpoint btime_line (lines : list text) : res (option Z) :=
    match lines with
    | [] => Ok None
    | line :: lines =>
        if negb (starts_with (T "btime ") line) then btime_line lines
        else do seconds <- py_int 10 (skipn 6 line); Ok (Some seconds)
    end.
  Definition boot_seconds : res Z :=
    do data <- as_proc_error (pc_stat P);
    do t <- text_of (pc_decode P) data;
    do r <- btime_line (file_lines t);
    match r with Some s => Ok s | None => Err EProcError end.

  (** ** ptrace/process_tools.py 21-103 dumpProcessInfo *)

  (** 54-66: the variables kept and the number removed *)
  Fixpoint truncate_env (max_length length : Z) (env : list text) : list text * Z :=
    match env with
    | [] => ([], 0)
    | var :: env =>
        if max_length <? length + zlen var then
          let '(kept, removed) := truncate_env max_length length env in (kept, removed + 1)
        else
          let '(kept, removed) := truncate_env max_length (length + zlen var) env in (var :: kept, removed)
    end.
  Context (repr : text -> text).
  (** 67-68.  "%s=%r" % a tuple of one element raises TypeError. *)
  Definition env_item (item : text) : res text :=
    match split1 "="%char item with
    | Some (name, value) => Ok (name ++ T "=" ++ repr value)
    | None => Err ETypeError
    end.
  (** repr(list) *)
  Definition repr_list (l : list text) : text := T "[" ++ join (T ", ") (map repr l) ++ T "]".
  (** 50-71.  [max_length]: None or an integer; 0 is false. *)
  Definition format_env (max_length : option Z) (env : list text) : res text :=
    let truncate := match max_length with Some n => if n =? 0 then None else Some n | None => None end in
    match truncate with
    | Some max_length =>
        let '(kept, removed) := truncate_env max_length 0 env in
        do items <- mapM env_item kept;
        let env := join (T ", ") items in
        Ok (if removed =? 0 then env else env ++ T ", ... (skip " ++ str_int removed ++ T " vars)")
    | None => Ok (repr_list env)
    end.
  (** 86-89: the numbers of a line "Uid:" or "Gid:" *)
  Definition ids (line : text) : res (list Z) := mapM (py_int 10) (split_char TAB (skipn 5 line)).
  Fixpoint status_ids (lines : list text) (user group : option (list Z)) : res (option (list Z) * option (list Z)) :=
    match lines with
    | [] => Ok (user, group)
    | line :: lines =>
        do user <- (if starts_with (T "Uid:") line then do l <- ids line; Ok (Some l) else Ok user);
        do group <- (if starts_with (T "Gid:") line then do l <- ids line; Ok (Some l) else Ok group);
        status_ids lines user group
    end.
  (** 91-100: one line of the log, if the list is not empty *)
  Definition format_ids (title : text) (l : option (list Z)) : res (list text) :=
    match l with
    | None | Some [] => Ok []
    | Some l =>
        do real <- item l 0;
        let t := title ++ T " identifier: " ++ str_int real in
        do effective <- item l 1;
        Ok [if real =? effective then t else t ++ T " (effective: " ++ str_int effective ++ T ")"]
    end.
  (** The try blocks "except ProcError: pass": lines written, or the exception that leaves the function *)
  Definition unless_proc (m : res (list text)) : res (list text) :=
    match m with Err EProcError => Ok [] | _ => m end.
  (** openProc is inside the try block; reading the file is not protected against OSError.
      Lines already written are not shown when an exception leaves the function. *)
  Definition dumpProcessInfo (p : platform) (pid : Z) (max_length : option Z) : res (list text) :=
    if negb (running_linux p) then Ok [T "Process ID: " ++ str_int pid]
    else
      do stat <- match readProcessStat pid with
                 | Ok s => Ok (Some s)
                 | Err EProcError => Ok None
                 | Err e => Err e
                 end;
      let id_line := T "Process ID: " ++ str_int pid ++
                     match stat with Some s => T " (parent: " ++ str_int (ps_ppid s) ++ T ")" | None => [] end in
      let state_line :=
        match stat with
        | Some s => [T "Process state: " ++
                     match dget text_eqb (ps_state s) STATE_NAMES with
                     | Some n => ps_state s ++ T " (" ++ n ++ T ")"
                     | None => ps_state s
                     end]
        | None => []
        end in
      do cmdline <- unless_proc (do l <- readProcessProcList pid (T "cmdline"); Ok [T "Process command line: " ++ repr_list l]);
      do environ <- unless_proc (do l <- readProcessProcList pid (T "environ"); do t <- format_env max_length l; Ok [T "Process environment: " ++ t]);
      do cwd <- unless_proc (do d <- readProcessLink pid (T "cwd"); Ok [T "Process working directory: " ++ d]);
      do owner <- unless_proc (do data <- as_proc_error (pc_file P pid (T "status"));
                               do t <- text_of (pc_decode P) data;
                               do ug <- status_ids (file_lines t) None None;
                               do u <- format_ids (T "User") (fst ug);
                               do g <- format_ids (T "Group") (snd ug);
                               Ok (u ++ g));
      Ok (id_line :: state_line ++ cmdline ++ environ ++ cwd ++ owner).
End Proc.
