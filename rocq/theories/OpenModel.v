(** * OpenModel: the files that the library and gdb.py open: ptrace/linux_proc.py, ptrace/debugger/memory_mapping.py, ptrace/process_tools.py, ptrace/debugger/process.py and
    gdb.py.  The state is the list of the names of the open files.  What open(), reading and the other functions do is an argument.  close() works: it may only fail
    when something is still to be written. *)
From Coq Require Import ZArith List Ascii String Bool.
From Verif Require Import PyBase PyInt Platform HostModel MapModel XrayModel.
Import ListNotations.
Open Scope Z_scope.

Definition files : Type := list text.
Definition M (A : Type) : Type := files -> files * res A.
Definition lift {A} (r : res A) : M A := fun s => (s, r).
Definition mbind {A B} (m : M A) (f : A -> M B) : M B := fun s => let '(s, r) := m s in match r with Ok a => f a s | Err e => (s, Err e) end.
Notation "'act' x <- m ; f" := (mbind m (fun x => f)) (at level 200, x pattern, m at level 100, f at level 200, right associativity).
(** [r]: what open(name) does, and what is found in the file *)
Definition open_file {A} (name : text) (r : res A) : M A := fun s => match r with Ok a => (name :: s, Ok a) | Err e => (s, Err e) end.
Fixpoint without (name : text) (s : files) : files := match s with [] => [] | x :: s => if text_eqb x name then s else x :: without name s end.
Definition close_file (name : text) : M unit := fun s => (without name s, Ok tt).
(** try: m finally: f *)
Definition finally {A} (m : M A) (f : M unit) : M A :=
  fun s => let '(s, r) := m s in let '(s, r') := f s in (s, match r' with Ok _ => r | Err e => Err e end).
(** except IOError *)
Definition io_error {A} (m : M A) (e : exn) : M A := fun s => let '(s, r) := m s in (s, match r with Err (EOSError _) => Err e | r => r end).

(** A file that is read line by line: the lines, and the error that ends them, if any *)
Record lines : Type := Lines { l_lines : list text; l_error : option exn }.
Definition l_end (l : lines) : res unit := match l_error l with Some e => Err e | None => Ok tt end.

(** ** ptrace/linux_proc.py *)

(** 23-31 *)
Definition openProc {A} (path : text) (r : res A) : M A := io_error (open_file (T "/proc/" ++ path) r) EProcError.
(** 34-40; [r]: open(), then read() *)
Definition readProc (path : text) (r : res (res text)) : M text :=
  act content <- openProc path r; finally (lift content) (close_file (T "/proc/" ++ path)).
(** 43-53 *)
Definition readProcessProc (pid key : text) (r : res (res text)) : M text :=
  let filename := T "/proc/" ++ pid ++ T "/" ++ key in
  io_error (act content <- open_file filename r; finally (lift content) (close_file filename)) EProcError.
(** 231-238: the loop; the new value, if there is one *)
Fixpoint boot_lines (zone : Z -> Z) (l : list text) (last : res unit) : res (option Z) :=
  match l with
  | [] => do _ <- last; Ok None
  | line :: l =>
      if negb (starts_with (T "btime ") line) then boot_lines zone l last
      else do seconds <- py_int 10 (skipn 6 line); do btime <- timestampUNIX zone seconds true; Ok (Some btime)
  end.
(** 226-242; the attribute getSystemBoot.value, before and after the call *)
Definition getSystemBoot (zone : Z -> Z) (value : option Z) (r : res lines) : M Z :=
  match value with
  | Some v => lift (Ok v)
  | None =>
      act stat_file <- openProc (T "stat") r;
      act value <- lift (boot_lines zone (l_lines stat_file) (l_end stat_file));
      act _ <- close_file (T "/proc/stat");
      match value with Some v => lift (Ok v) | None => lift (Err EProcError) end
  end.

(** ** ptrace/debugger/memory_mapping.py 104-139 *)
Fixpoint map_lines (l : list text) (last : res unit) : res (list mapping) :=
  match l with
  | [] => do _ <- last; Ok []
  | line :: l => do m <- parse_mapping line; do ms <- map_lines l last; Ok (m :: ms)
  end.
Definition readProcessMappings (has_proc : bool) (pid : text) (r : res lines) : M (list mapping) :=
  if negb has_proc then lift (Ok []) else
  act mapsfile <- (fun s => let '(s, r) := openProc (pid ++ T "/maps") r s in (s, match r with Err EProcError => Err EProcessError | r => r end));
  finally (lift (map_lines (l_lines mapsfile) (l_end mapsfile))) (close_file (T "/proc/" ++ pid ++ T "/maps")).

(** ** ptrace/process_tools.py 81-103: the identifiers of user and group; [log]: what log() does with the lines *)
Definition ids (line : text) : res (list Z) := mapM (py_int 10) (split_char (z2b 9) (skipn 5 line)).
Fixpoint status_lines (l : list text) (last : res unit) (user group : option (list Z)) : res (option (list Z) * option (list Z)) :=
  match l with
  | [] => do _ <- last; Ok (user, group)
  | line :: l =>
      do user <- (if starts_with (T "Uid:") line then do i <- ids line; Ok (Some i) else Ok user);
      do group <- (if starts_with (T "Gid:") line then do i <- ids line; Ok (Some i) else Ok group);
      status_lines l last user group
  end.
Definition show_ids (log : list Z -> res unit) (i : option (list Z)) : res unit :=
  match i with
  | Some [] | None => Ok tt
  | Some [_] => Err EIndexError
  | Some i => log i
  end.
Definition dumpStatus (pid : text) (r : res lines) (log : list Z -> res unit) : M unit :=
  fun s =>
    let '(s, r) := (act status_file <- openProc (pid ++ T "/status") r;
                    act found <- lift (status_lines (l_lines status_file) (l_end status_file) None None);
                    act _ <- close_file (T "/proc/" ++ pid ++ T "/status");
                    act _ <- lift (show_ids log (fst found));
                    lift (show_ids log (snd found))) s in
    (s, match r with Err EProcError => Ok tt | r => r end).

(** ** gdb.py 409-427; the other files have no contents here, [mem]: seek() and read(), [write]: write() *)
Fixpoint copy_lines (mem : Z -> Z -> res (list byte)) (write : list byte -> res unit) (l : list text) : res unit :=
  match l with
  | [] => Ok tt
  | line :: l => do chunk <- gcore_line mem line; do _ <- write chunk; copy_lines mem write l
  end.
Definition gcore (python3 : bool) (child : text) (argv1 : option text) (maps : res lines) (mem_file dump : res unit)
  (mem : Z -> Z -> res (list byte)) (write : list byte -> res unit) : M unit :=
  act maps_file <- open_file (T "/proc/" ++ child ++ T "/maps") maps;
  act _ <- open_file (T "/proc/" ++ child ++ T "/mem") (if python3 then Err EValueError else mem_file);
  act name <- lift (match argv1 with Some a => Ok (T "/vmdump/" ++ a ++ T ".dump") | None => Err EIndexError end);
  act _ <- open_file name dump;
  act _ <- lift (l_end maps_file);
  act _ <- lift (copy_lines mem write (l_lines maps_file));
  act _ <- close_file (T "/proc/" ++ child ++ T "/maps");
  act _ <- close_file (T "/proc/" ++ child ++ T "/mem");
  close_file name.

(** ** ptrace/debugger/process.py: the file /proc/<pid>/mem of a process object *)

(** read_mem_file: None, open or closed; whether readBytes was replaced by _readBytes; running; is_attached *)
Inductive memfile : Type := NoFile | OpenFile | ClosedFile.
Record proc : Type := Proc { p_mem : memfile; p_fallback : bool; p_running : bool; p_attached : bool }.
(** 155-177 *)
Definition new_proc : proc := Proc NoFile false true true.
(** 554-587 readBytes(address, size); [r]: open(); [data]: seek() and read(); [peek]: _readBytes().  A closed file raises ValueError. *)
Definition readBytes (pid : text) (size : Z) (r : res unit) (data peek : res (list byte)) (p : proc) : files -> files * proc * res (list byte) :=
  fun s =>
    if p_fallback p then (s, p, peek) else
    let filename := T "/proc/" ++ pid ++ T "/mem" in
    let fallback := Proc (p_mem p) true (p_running p) (p_attached p) in
    let use (s : files) (p : proc) (data : res (list byte)) :=
      match data with
      | Err (EOSError _) | Err EValueError => (s, p, Err EProcessError)
      | Err e => (s, p, Err e)
      | Ok [] => if size =? 0 then (s, p, Ok []) else (s, Proc (p_mem p) true (p_running p) (p_attached p), peek)
      | Ok d => (s, p, Ok d)
      end in
    match p_mem p with
    | NoFile =>
        match open_file filename r s with
        | (s, Ok _) => use s (Proc OpenFile false (p_running p) (p_attached p)) data
        | (s, Err (EOSError _)) => (s, fallback, peek)
        | (s, Err e) => (s, p, Err e)
        end
    | OpenFile => use s p data
    | ClosedFile => use s p (Err EValueError)
    end.
(** 291-298 detach(); ptrace_detach() works *)
Definition detach (p : proc) : proc := Proc (p_mem p) (p_fallback p) (p_running p) false.
(** 300-307 _notRunning() on Linux *)
Definition notRunning (pid : text) (p : proc) : files -> files * proc :=
  fun s =>
    let s := match p_mem p with OpenFile => fst (close_file (T "/proc/" ++ pid ++ T "/mem") s) | _ => s end in
    (s, detach (Proc (match p_mem p with NoFile => NoFile | _ => ClosedFile end) (p_fallback p) false (p_attached p))).

(** What happens to the object *)
Inductive op : Type := Read (size : Z) (r : res unit) (data peek : res (list byte)) | Detach | End.
Definition step (pid : text) (o : op) (x : files * proc) : files * proc :=
  let '(s, p) := x in
  match o with
  | Read size r data peek => fst (readBytes pid size r data peek p s)
  | Detach => (s, detach p)
  | End => notRunning pid p s
  end.
Definition steps (pid : text) (l : list op) (x : files * proc) : files * proc := fold_left (fun x o => step pid o x) l x.
