(** * ToolsModel: ptrace/tools.py, ptrace/logging_tools.py, ptrace/syscall/posix_arg.py *)
From Coq Require Import ZArith List Ascii String Bool.
From Verif Require Import PyBase Platform IntModel.
Import ListNotations.
Open Scope Z_scope.

(** ptrace/tools.py 26-49 *)
Fixpoint readBits_loop (value : Z) (bitmasks : list (Z * text)) (bitset : list text)
  : Z * list text :=
  match bitmasks with
  | [] => (value, bitset)
  | (mask, item) :: rest =>
      if Z.land value mask =? 0 then readBits_loop value rest bitset
      else readBits_loop (Z.land value (Z.lnot mask)) rest (bitset ++ [item])
  end.
Definition readBits (value : Z) (bitmasks : list (Z * text)) : list text :=
  let (value, bitset) := readBits_loop value bitmasks [] in
  if value =? 0 then bitset else bitset ++ [str_int value].

(** ptrace/tools.py 52-78.  [empty_text = None] is Python's None. *)
Definition formatBits (value : Z) (bitmasks : list (Z * text)) (empty_text : option text)
  (format_value : Z -> text) : text :=
  match readBits value bitmasks with
  | [] =>
      match empty_text with
      | Some (c :: s) => c :: s
      | _ => str_int value
      end
  | names =>
      let t := join (T "|") names in
      if value =? 0 then t
      else T "<" ++ t ++ T "> (" ++ format_value value ++ T ")"
  end.

(** ptrace/tools.py 131-142 (minmax) *)
Definition minmax (min_value value max_value : Z) : Z :=
  Z.min (Z.max min_value value) max_value.

(** ptrace/tools.py 145-155 (inverseDict); keys and values with their equality *)
Definition inverseDict {K V} (veqb : V -> V -> bool) (data : list (K * V)) : list (V * K) :=
  fold_left (fun result kv => dset veqb (snd kv) (fst kv) result) data [].

(** ptrace/tools.py 158-167 *)
Definition signal_to_exitcode (signum : Z) : Z := 128 + signum.

(** os.path functions used by locateProgram (posixpath module of CPython) *)
Definition isabs (s : text) : bool := starts_with (T "/") s.
Definition path_join (a b : text) : text :=
  if starts_with (T "/") b then b
  else match a with
       | [] => b
       | _ => if ends_with (T "/") a then a ++ b else a ++ T "/" ++ b
       end.
(** text up to and including the last "/" *)
Fixpoint upto_last_slash (s : text) : text :=
  match s with
  | [] => []
  | c :: s' =>
      match upto_last_slash s' with
      | [] => if Ascii.eqb c "/" then [c] else []
      | h => c :: h
      end
  end.
Fixpoint rstrip_slash_rev (s : text) : text :=
  match s with
  | c :: s' => if Ascii.eqb c "/" then rstrip_slash_rev s' else s
  | [] => []
  end.
Definition dirname (s : text) : text :=
  let head := upto_last_slash s in
  if forallb (Ascii.eqb "/") head then head
  else rev (rstrip_slash_rev (rev head)).
(** posixpath.normpath *)
Fixpoint norm_comps (initial_slashes : bool) (comps new_comps : list text) : list text :=
  (* new_comps is kept in reverse order *)
  match comps with
  | [] => rev new_comps
  | comp :: comps =>
      if text_eqb comp [] || text_eqb comp (T ".") then norm_comps initial_slashes comps new_comps
      else if negb (text_eqb comp (T ".."))
              || (negb initial_slashes && match new_comps with [] => true | _ => false end)
              || match new_comps with c :: _ => text_eqb c (T "..") | [] => false end
           then norm_comps initial_slashes comps (comp :: new_comps)
           else match new_comps with
                | _ :: r => norm_comps initial_slashes comps r
                | [] => norm_comps initial_slashes comps []
                end
  end.
Definition normpath (path : text) : text :=
  match path with
  | [] => T "."
  | _ =>
      let slashes : text :=
        if starts_with (T "//") path && negb (starts_with (T "///") path) then T "//"
        else if starts_with (T "/") path then T "/" else [] in
      let comps := norm_comps (match slashes with [] => false | _ => true end)
                     (split_char "/" path) [] in
      match slashes ++ join (T "/") comps with
      | [] => T "."
      | r => r
      end
  end.

(** ptrace/tools.py 107-128 (locateProgram).  [cwd] = getcwd(), [env_path] = getenv('PATH'),
    [executable f] = access(f, X_OK). *)
Fixpoint locate_in (executable : text -> bool) (program : text) (paths : list text) : text :=
  match paths with
  | [] => program
  | path :: paths =>
      let filename := path_join path program in
      if executable filename then filename else locate_in executable program paths
  end.
Definition locateProgram (cwd : text) (env_path : option text) (executable : text -> bool)
  (program : text) : text :=
  if isabs program then program
  else match dirname program with
       | _ :: _ => normpath (path_join cwd program)
       | [] =>
           match env_path with
           | None | Some [] => program
           | Some paths => locate_in executable program (split_char ":" paths)
           end
       end.

(** logging constants (Python library): DEBUG, INFO, WARNING, ERROR *)
Definition DEBUG : Z := 10.
Definition INFO : Z := 20.
Definition WARNING : Z := 30.
Definition ERROR : Z := 40.
Inductive log_method : Type := log_error | log_warning | log_info | log_debug.
(** ptrace/logging_tools.py 5-18 *)
Definition getLogFunc (level : Z) : log_method :=
  if level =? ERROR then log_error
  else if level =? WARNING then log_warning
  else if level =? INFO then log_info
  else if level =? DEBUG then log_debug
  else log_error.
(** ptrace/logging_tools.py 21-30 *)
Definition changeLogLevel (level delta : Z) : Z := minmax DEBUG (level + delta * 10) ERROR.

(** ptrace/syscall/posix_arg.py 6-12 *)
Definition MMAP_PROT_BITMASK : list (Z * text) :=
  [(1, T "PROT_READ"); (2, T "PROT_WRITE"); (4, T "PROT_EXEC");
   (0x01000000, T "PROT_GROWSDOWN"); (0x02000000, T "PROT_GROWSUP")].
(** ptrace/syscall/posix_arg.py 15-16 *)
Definition formatMmapProt (value : Z) : text :=
  formatBits value MMAP_PROT_BITMASK (Some (T "PROT_NONE")) str_int.
(** ptrace/syscall/posix_arg.py 20-24 *)
Definition ACCESS_MODE_BITMASK : list (Z * text) :=
  [(1, T "X_OK"); (2, T "W_OK"); (4, T "R_OK")].
(** ptrace/syscall/posix_arg.py 27-28 *)
Definition formatAccessMode (value : Z) : text :=
  formatBits value ACCESS_MODE_BITMASK (Some (T "F_OK")) str_int.
(** ptrace/syscall/posix_arg.py 32-51 (octal constants written in hexadecimal) *)
Definition OPEN_FLAGS_BITMASK : list (Z * text) :=
  [(0x1, T "O_WRONLY"); (0x2, T "O_RDWR"); (0x40, T "O_CREAT"); (0x80, T "O_EXCL");
   (0x100, T "O_NOCTTY"); (0x200, T "O_TRUNC"); (0x400, T "O_APPEND");
   (0x800, T "O_NONBLOCK"); (0x1000, T "O_SYNC"); (0x2000, T "O_ASYNC");
   (0x4000, T "O_DIRECT"); (0x8000, T "O_LARGEFILE"); (0x10000, T "O_DIRECTORY");
   (0x20000, T "O_NOFOLLOW"); (0x40000, T "O_NOATIME"); (0x80000, T "O_CLOEXEC");
   (0x200000, T "O_PATH"); (0x410000, T "O_TMPFILE")].
(** Python's oct() *)
Definition py_oct (n : Z) : text :=
  if n <? 0 then T "-0o" ++ digits 8 (- n) else T "0o" ++ digits 8 n.
(** ptrace/syscall/posix_arg.py 54-65 *)
Definition formatOpenFlags (value : Z) : text :=
  let flags := readBits value OPEN_FLAGS_BITMASK in
  let flags :=
    match flags with
    | f :: _ => if text_eqb f (T "O_WRONLY") || text_eqb f (T "O_RDWR") then flags
                else T "O_RDONLY" :: flags
    | [] => T "O_RDONLY" :: flags
    end in
  let t := join (T "|") flags in
  if value =? 0 then t else t ++ T " (" ++ py_oct value ++ T ")".
(** ptrace/syscall/posix_arg.py 68-78 *)
Definition OPEN_MODE_BITMASK : list (Z * text) :=
  [(0x100, T "S_IRUSR"); (0x80, T "S_IWUSR"); (0x40, T "S_IXUSR");
   (0x20, T "S_IRGRP"); (0x10, T "S_IWGRP"); (0x8, T "S_IXGRP");
   (0x4, T "S_IROTH"); (0x2, T "S_IWOTH"); (0x1, T "S_IXOTH")].
(** ptrace/syscall/posix_arg.py 81-90 *)
Definition formatOpenMode (value : Z) : text :=
  let t := join (T "|") (readBits value OPEN_MODE_BITMASK) in
  if value =? 0 then t else py_oct value.
(** ptrace/syscall/posix_arg.py 93-113 *)
Definition CLONE_FLAGS_BITMASK : list (Z * text) :=
  [(0x00000100, T "CLONE_VM"); (0x00000200, T "CLONE_FS"); (0x00000400, T "CLONE_FILES");
   (0x00000800, T "CLONE_SIGHAND"); (0x00002000, T "CLONE_PTRACE"); (0x00004000, T "CLONE_VFORK");
   (0x00008000, T "CLONE_PARENT"); (0x00010000, T "CLONE_THREAD"); (0x00020000, T "CLONE_NEWNS");
   (0x00040000, T "CLONE_SYSVSEM"); (0x00080000, T "CLONE_SETTLS");
   (0x00100000, T "CLONE_PARENT_SETTID"); (0x00200000, T "CLONE_CHILD_CLEARTID");
   (0x00400000, T "CLONE_DETACHED"); (0x00800000, T "CLONE_UNTRACED");
   (0x01000000, T "CLONE_CHILD_SETTID"); (0x02000000, T "CLONE_STOPPED");
   (0x04000000, T "CLONE_NEWUTS"); (0x08000000, T "CLONE_NEWIPC")].
(** ptrace/syscall/posix_arg.py 116-126.  [signame] = ptrace.signames.signalName *)
Definition formatCloneFlags (signame : Z -> text) (flags : Z) : text :=
  let bits := readBits flags CLONE_FLAGS_BITMASK in
  let signum := Z.land flags 0xFF in
  let bits := if signum =? 0 then bits else signame signum :: bits in
  match bits with
  | [] => str_int flags
  | _ => T "<" ++ join (T "|") bits ++ T "> (" ++ str_int flags ++ T ")"
  end.
(** ptrace/syscall/posix_arg.py 129-134 *)
Definition AT_FDCWD : Z := -100.
Definition formatDirFd (value : Z) : text :=
  let value := uint2int value in
  if value =? AT_FDCWD then T "AT_FDCWD" else str_int value.
