(** * ToolsProps: C05, C06, C07, C58, C62 (ptrace/tools.py, logging_tools.py, posix_arg.py). *)
From Coq Require Import ZArith List Ascii String Bool.
From Verif Require Import PyBase Platform IntModel IntSpec ToolsModel ToolsSpec ToolsProofs ToolsProofs2.
Import ListNotations.
Open Scope Z_scope.

(** ** C05 *)
Theorem c05_readbits_display : forall value table, flag_display value table (readBits value table).
Proof. exact readBits_spec. Qed.
Print Assumptions c05_readbits_display.
Example c05_readbits_ex :
  readBits 12 [(1, T "exec"); (2, T "write"); (4, T "read")] = [T "read"; T "8"].
Proof. reflexivity. Qed.

(** the specification leaves no choice *)
Theorem c05_display_unique : forall value table s1 s2,
  flag_display value table s1 -> flag_display value table s2 -> s1 = s2.
Proof. exact flag_display_fun. Qed.
Print Assumptions c05_display_unique.

(** with one-bit flags: a name appears iff its bit is set, in table order, and the value is
    the union of the named masks and of the numeric rest *)
Theorem c05_readbits_simple : forall value table, simple_table table ->
  exists rest, unnamed value table rest /\
  readBits value table = map snd (filter (fun e => negb (Z.land value (fst e) =? 0)) table)
     ++ (if rest =? 0 then [] else [str_int rest]) /\
  value = fold_right Z.lor rest (map fst (filter (fun e => negb (Z.land value (fst e) =? 0)) table)).
Proof. exact readBits_simple. Qed.
Print Assumptions c05_readbits_simple.
Example c05_simple_ex : simple_table ACCESS_MODE_BITMASK /\ readBits 13 ACCESS_MODE_BITMASK = [T "X_OK"; T "R_OK"; T "8"].
Proof. split; [exact access_simple|reflexivity]. Qed.

(** a name is shown only if the value has one of the bits of its mask *)
Theorem c05_named_justified : forall value table names,
  named value [] table names -> forall n, In n names -> exists m, In (m, n) table /\ Z.land value m <> 0.
Proof. exact (fun value table names H => named_In value [] table names H). Qed.
Print Assumptions c05_named_justified.

Theorem c05_formatbits : forall value table empty fmt,
  (value <> 0 -> formatBits value table empty fmt =
     T "<" ++ join (T "|") (readBits value table) ++ T "> (" ++ fmt value ++ T ")") /\
  formatBits 0 table empty fmt = match empty with Some (c :: s) => c :: s | _ => T "0" end.
Proof.
  exact (fun v t e f => conj (formatBits_nonzero v t e f) (formatBits_zero t e f)).
Qed.
Print Assumptions c05_formatbits.
Example c05_formatbits_ex :
  formatBits 5 [(1, T "exec"); (2, T "write"); (4, T "read")] None str_int = T "<exec|read> (5)".
Proof. reflexivity. Qed.

(** ** C06 *)
Theorem c06_mmap_prot : forall value names, flag_display value MMAP_PROT_BITMASK names ->
  formatMmapProt value = if value =? 0 then T "PROT_NONE"
    else T "<" ++ join (T "|") names ++ T "> (" ++ str_int value ++ T ")".
Proof. exact formatMmapProt_spec. Qed.
Print Assumptions c06_mmap_prot.
Example c06_mmap_prot_ex : formatMmapProt 3 = T "<PROT_READ|PROT_WRITE> (3)".
Proof. reflexivity. Qed.

Theorem c06_access_mode : forall value names, flag_display value ACCESS_MODE_BITMASK names ->
  formatAccessMode value = if value =? 0 then T "F_OK"
    else T "<" ++ join (T "|") names ++ T "> (" ++ str_int value ++ T ")".
Proof. exact formatAccessMode_spec. Qed.
Print Assumptions c06_access_mode.
Example c06_access_mode_ex : formatAccessMode 4 = T "<R_OK> (4)".
Proof. reflexivity. Qed.

(** O_RDONLY is shown iff neither access mode bit is set *)
Theorem c06_open_flags : forall value names, flag_display value OPEN_FLAGS_BITMASK names ->
  formatOpenFlags value =
    join (T "|") ((if Z.testbit value 0 || Z.testbit value 1 then [] else [T "O_RDONLY"]) ++ names)
    ++ (if value =? 0 then [] else T " (" ++ py_oct value ++ T ")").
Proof. exact formatOpenFlags_names. Qed.
Print Assumptions c06_open_flags.
Example c06_open_flags_ex : formatOpenFlags 0x80041 = T "O_WRONLY|O_CREAT|O_CLOEXEC (0o2000101)"
  /\ formatOpenFlags 0 = T "O_RDONLY".
Proof. split; reflexivity. Qed.

(** The tables contain single-bit flags, except O_TMPFILE at the end of the open flags, so
    "named" means "bit set". *)
Theorem c06_tables_simple :
  simple_table MMAP_PROT_BITMASK /\ simple_table ACCESS_MODE_BITMASK /\
  simple_table OPEN_MODE_BITMASK /\ simple_table CLONE_FLAGS_BITMASK /\
  simple_table (removelast OPEN_FLAGS_BITMASK).
Proof.
  exact (conj mmap_simple (conj access_simple (conj mode_simple (conj clone_simple open_simple)))).
Qed.
Print Assumptions c06_tables_simple.

(** Finding: O_TMPFILE = O_DIRECTORY + one bit, and is tested with "any bit set" after O_DIRECTORY was removed;
    a genuine O_TMPFILE therefore is displayed as O_DIRECTORY|O_TMPFILE. *)
Theorem c06_tmpfile_refuted :
  exists value, value = 0x410000 (* exactly O_TMPFILE *) /\
    In (T "O_DIRECTORY") (readBits value OPEN_FLAGS_BITMASK).
Proof. exists 0x410000. split; [reflexivity|]. vm_compute. auto. Qed.
Print Assumptions c06_tmpfile_refuted.

(** the mode is shown as its octal value; mode 0 is shown as the empty text *)
Theorem c06_open_mode : forall value, formatOpenMode value = if value =? 0 then [] else py_oct value.
Proof. exact formatOpenMode_spec. Qed.
Print Assumptions c06_open_mode.
Example c06_open_mode_ex : formatOpenMode 0x1a4 = T "0o644".
Proof. reflexivity. Qed.

Theorem c06_clone_flags : forall signame flags names, flag_display flags CLONE_FLAGS_BITMASK names ->
  formatCloneFlags signame flags =
  if flags =? 0 then T "0"
  else T "<" ++ join (T "|") ((if flags mod 256 =? 0 then [] else [signame (flags mod 256)]) ++ names)
       ++ T "> (" ++ str_int flags ++ T ")".
Proof. exact formatCloneFlags_names. Qed.
Print Assumptions c06_clone_flags.

(** Finding: the termination signal of clone() is listed twice, by name and as leftover bits. *)
Theorem c06_clone_signal_twice_refuted :
  exists signame, formatCloneFlags signame 17 = T "<SIGCHLD|17> (17)".
Proof. exists (fun _ => T "SIGCHLD"). reflexivity. Qed.
Print Assumptions c06_clone_signal_twice_refuted.

(** dirfd: AT_FDCWD exactly for the 32-bit signed value -100 *)
Theorem c06_dirfd : forall v s, signed_of 32 v s ->
  formatDirFd v = if s =? -100 then T "AT_FDCWD" else str_int s.
Proof. exact formatDirFd_spec. Qed.
Print Assumptions c06_dirfd.
Example c06_dirfd_ex : signed_of 32 0xffffff9c (-100) /\ formatDirFd 0xffffff9c = T "AT_FDCWD".
Proof. split; [split; [split; discriminate || reflexivity|exists 1; reflexivity]|reflexivity]. Qed.

(** the octal text denotes the value *)
Theorem c06_octal_reads_back : forall v, 0 <= v ->
  exists ds, py_oct v = T "0o" ++ ds /\ read_uint 8 ds = Some v.
Proof. exact py_oct_reads. Qed.
Print Assumptions c06_octal_reads_back.

(** ** C07 *)
Theorem c07_minmax : forall lo v hi, lo <= hi -> nearest lo v hi (minmax lo v hi).
Proof. exact minmax_nearest. Qed.
Print Assumptions c07_minmax.
Theorem c07_nearest_unique : forall lo v hi a b, nearest lo v hi a -> nearest lo v hi b -> a = b.
Proof. exact nearest_unique. Qed.
Print Assumptions c07_nearest_unique.
Example c07_minmax_ex : minmax (-2) 27 10 = 10 /\ minmax (-2) (-3) 10 = -2 /\ minmax (-2) 0 10 = 0.
Proof. repeat split. Qed.

Theorem c07_log_level : forall level delta,
  10 <= changeLogLevel level delta <= 40 /\
  (10 <= level + 10 * delta <= 40 -> changeLogLevel level delta = level + 10 * delta).
Proof. exact (fun l d => conj (changeLogLevel_range l d) (changeLogLevel_exact l d)). Qed.
Print Assumptions c07_log_level.
Example c07_log_level_ex : changeLogLevel 40 (-1) = 30 /\ changeLogLevel 10 (-7) = 10.
Proof. split; reflexivity. Qed.

(** each standard level has its own method; everything else is logged as an error *)
Theorem c07_log_func :
  getLogFunc 10 = log_debug /\ getLogFunc 20 = log_info /\ getLogFunc 30 = log_warning /\
  forall l, l <> 10 -> l <> 20 -> l <> 30 -> getLogFunc l = log_error.
Proof. exact getLogFunc_spec. Qed.
Print Assumptions c07_log_func.

(** ** C62 *)
Theorem c62_inverse : forall (K V : Type) (veqb : V -> V -> bool),
  (forall a b, veqb a b = true <-> a = b) ->
  forall (data : list (K * V)) k v, NoDup (map snd data) ->
  (dget veqb v (inverseDict veqb data) = Some k <-> In (k, v) data).
Proof. exact (fun K V veqb H data k v => inverseDict_inverse veqb H data k v). Qed.
Print Assumptions c62_inverse.
Theorem c62_general : forall (K V : Type) (veqb : V -> V -> bool),
  (forall a b, veqb a b = true <-> a = b) ->
  forall (data : list (K * V)),
  NoDup (map fst (inverseDict veqb data)) /\
  (forall k v, dget veqb v (inverseDict veqb data) = Some k -> In (k, v) data) /\
  (forall k v, In (k, v) data -> exists k', dget veqb v (inverseDict veqb data) = Some k').
Proof.
  exact (fun K V veqb H data => conj (inverseDict_keys veqb H data)
    (conj (fun k v => inverseDict_sound veqb H data v k) (inverseDict_total veqb H data))).
Qed.
Print Assumptions c62_general.
(** of several keys with one value the last wins *)
Theorem c62_last_wins : forall (K V : Type) (veqb : V -> V -> bool),
  (forall a b, veqb a b = true <-> a = b) ->
  forall (data data' : list (K * V)) k v,
  ~ In v (map snd data') -> dget veqb v (inverseDict veqb (data ++ (k, v) :: data')) = Some k.
Proof. exact (fun K V veqb H => inverseDict_last veqb H). Qed.
Print Assumptions c62_last_wins.
Example c62_ex : inverseDict Z.eqb [(T "0x10", 16); (T "0x20", 32)] = [(16, T "0x10"); (32, T "0x20")].
Proof. reflexivity. Qed.

(** ** C58 *)
Theorem c58_absolute : forall cwd env ex prog,
  isabs prog = true -> locateProgram cwd env ex prog = prog.
Proof. exact locate_abs. Qed.
Print Assumptions c58_absolute.

(** A bare name resolves to the first PATH directory in which it is executable, and is
    unchanged if there is none (or no PATH). *)
Theorem c58_bare : forall cwd dirs ex prog,
  ~ In "/"%char prog -> (forall d, In d dirs -> ~ In ":"%char d) -> dirs <> [] -> join (T ":") dirs <> [] ->
  (exists pre d post, dirs = pre ++ d :: post /\
     locateProgram cwd (Some (join (T ":") dirs)) ex prog = in_directory d prog /\
     ex (in_directory d prog) = true /\ (forall x, In x pre -> ex (in_directory x prog) = false)) \/
  (locateProgram cwd (Some (join (T ":") dirs)) ex prog = prog /\
     forall x, In x dirs -> ex (in_directory x prog) = false).
Proof. exact locate_dirs. Qed.
Print Assumptions c58_bare.
Example c58_bare_ex :
  locateProgram (T "/home") (Some (T "/usr/bin:/bin")) (fun f => text_eqb f (T "/bin/ls")) (T "ls") = T "/bin/ls".
Proof. reflexivity. Qed.

Theorem c58_no_path : forall cwd env ex prog, ~ In "/"%char prog ->
  env = None \/ env = Some [] -> locateProgram cwd env ex prog = prog.
Proof. exact locate_no_path. Qed.
Print Assumptions c58_no_path.

(** A relative path is resolved against the working directory: the result is absolute, free of
    "", "." and ".." components, and is the directory reached by walking the working directory's
    components and then the program's. *)
Theorem c58_relative : forall cwd env ex prog,
  isabs prog = false -> In "/"%char prog -> starts_with (T "/") cwd = true ->
  let comps := walk (split_char "/" cwd ++ split_char "/" prog) in
  locateProgram cwd env ex prog = root_of cwd ++ join (T "/") comps /\
  Forall (fun c => c <> [] /\ c <> T "." /\ c <> T "..") comps.
Proof. exact locate_anywhere. Qed.
Print Assumptions c58_relative.
Example c58_relative_ex :
  locateProgram (T "/home/me") None (fun _ => false) (T "../bin/./prog") = T "/home/bin/prog" /\
  locateProgram (T "//host/") None (fun _ => false) (T "./prog") = T "//host/prog" /\
  locateProgram (T "///host") None (fun _ => false) (T "./prog") = T "/host/prog".
Proof. repeat split; reflexivity. Qed.
