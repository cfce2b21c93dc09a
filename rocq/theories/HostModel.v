(** * HostModel: what the program learns from its host: ptrace/cpu_info.py, ptrace/os_tools.py, ptrace/terminal.py and the
    dates of ptrace/tools.py. *)
From Coq Require Import ZArith List Ascii String Bool.
From Verif Require Import PyBase IntModel.
Import ListNotations.
Open Scope Z_scope.

(** ** ptrace/cpu_info.py *)
(** The constants, one by one *)
Record cpu_flags : Type := CpuFlags {
  f_bigendian : bool; f_64bits : bool; f_word_size : Z; f_max_uint : Z;
  f_ppc32 : bool; f_ppc64 : bool; f_i386 : bool; f_x86_64 : bool; f_arm32 : bool; f_aarch64 : bool; f_riscv32 : bool; f_riscv64 : bool;
  f_intel : bool; f_powerpc : bool; f_arm : bool; f_riscv : bool
}.
(** 25-69.  [byteorder]: sys.byteorder; [pointer]: sizeof(c_void_p); [machine]: uname()[4], or None where uname() does not
    exist; [bits]: architecture()[0] *)
Definition cpu_info (byteorder : text) (pointer : Z) (machine : option text) (bits : text) : res cpu_flags :=
  let is64 := pointer =? 8 in
  let build a b c d e f g h :=
    CpuFlags (text_eqb byteorder (T "big")) is64 (if is64 then 8 else 4) (if is64 then 0xffffffffffffffff else 0xffffffff)
             a b c d e f g h (c || d) (a || b) (e || f) (g || h) in
  match machine with
  | Some m =>
      Ok (build (text_eqb m (T "ppc")) (text_eqb m (T "ppc64") || text_eqb m (T "ppc64le")) (text_eqb m (T "i386") || text_eqb m (T "i686"))
                (text_eqb m (T "x86_64") || text_eqb m (T "amd64")) (starts_with (T "arm") m) (text_eqb m (T "aarch64"))
                (text_eqb m (T "riscv32")) (text_eqb m (T "riscv64")))
  | None =>
      if text_eqb bits (T "32bit") then Ok (build false false true false false false false false)
      else if text_eqb bits (T "64bit") then Ok (build false false false true false false false false)
      else Err EValueError
  end.

(** ** ptrace/os_tools.py 16-26 *)
Record os_flags : Type := OsFlags {
  o_pypy : bool; o_linux : bool; o_freebsd : bool; o_openbsd : bool; o_macosx : bool; o_bsd : bool; o_proc : bool; o_ptrace : bool
}.
(** [platform]: sys.platform; [version]: sys.version *)
Definition os_tools (platform version : text) : os_flags :=
  let linux := starts_with (T "linux") platform in
  let freebsd := starts_with (T "freebsd") platform || starts_with (T "gnukfreebsd") platform in
  let openbsd := starts_with (T "openbsd") platform in
  let macosx := text_eqb platform (T "darwin") in
  let bsd := freebsd || macosx || openbsd in
  OsFlags (contains (T "pypy") (lower version)) linux freebsd openbsd macosx bsd linux (bsd || linux).

(** ** ptrace/terminal.py *)
(** The terminal: the first field that matters is the local flags (index 3 of tcgetattr()) *)
Record termios : Type := Termios { tm_before : list Z; tm_lflags : Z; tm_after : list Z }.
Definition ECHO : Z := 8.
(** 28-41; [tty]: isatty(); [get]: tcgetattr(); [set]: whether tcsetattr() raises.  The attributes afterwards. *)
Definition enableEchoMode (tty : bool) (state : res termios) (set_error : option exn) : res (bool * option termios) :=
  if negb tty then Ok (false, None)
  else
    do state <- state;
    if negb (Z.land (tm_lflags state) ECHO =? 0) then Ok (false, None)
    else match set_error with
         | Some e => Err e
         | None => Ok (true, Some (Termios (tm_before state) (Z.lor (tm_lflags state) ECHO) (tm_after state)))
         end.
(** 14-25: unpack('hh', size) of the first four bytes of struct winsize, whose fields are unsigned (little endian here) *)
Definition signed16 (n : Z) : Z := if n <? 0x8000 then n else n - 0x10000.
Definition terminalSize (size : list byte) : res (Z * Z) :=
  match size with
  | [a; b; c; d] => Ok (signed16 (b2z c + 256 * b2z d), signed16 (b2z a + 256 * b2z b))
  | _ => Err EStructError
  end.
Definition terminalWidth (size : list byte) : res Z := do r <- terminalSize size; Ok (fst r).

(** ** Dates (ptrace/tools.py 80-104): a datetime is its number of seconds since 1970-01-01 00:00 *)
Definition DATE_MIN : Z := -62135596800.     (* 0001-01-01 *)
Definition DATE_MAX : Z := 253402300799.     (* 9999-12-31 23:59:59 *)
Definition DELTA_MAX : Z := 999999999 * 86400 + 86399.
Definition DELTA_MIN : Z := -999999999 * 86400.
(** timedelta(seconds=value) and datetime + timedelta raise OverflowError out of their range *)
Definition add_date (date delta : Z) : res Z :=
  let r := date + delta in
  if (DATE_MIN <=? r) && (r <=? DATE_MAX) then Ok r else Err EOverflowError.
Definition timedelta (seconds : Z) : res Z := if (DELTA_MIN <=? seconds) && (seconds <=? DELTA_MAX) then Ok seconds else Err EOverflowError.
(** 80-81: [zone t]: the offset of the local time at the time [t] *)
Definition LOCAL_TIMEZONE_OFFSET (zone : Z -> Z) : Z := zone 0.
Definition timestampUNIX (zone : Z -> Z) (value : Z) (is_local : bool) : res Z :=
  do delta <- timedelta value;
  do timestamp <- add_date 0 delta;
  if is_local then add_date timestamp (LOCAL_TIMEZONE_OFFSET zone) else Ok timestamp.

(** ptrace/linux_proc.py 226-245: the value kept in the function; [seconds]: see ProcModel.boot_seconds *)
Definition getSystemBoot (zone : Z -> Z) (value : option Z) (seconds : res Z) : option Z * res Z :=
  match value with
  | Some v => (value, Ok v)
  | None => match (do s <- seconds; timestampUNIX zone s true) with
            | Ok v => (Some v, Ok v)
            | Err e => (None, Err e)
            end
  end.
