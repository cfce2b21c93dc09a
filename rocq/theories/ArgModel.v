(** * ArgModel: function calls, their arguments and the text shown for them
    (ptrace/func_call.py, ptrace/func_arg.py, ptrace/syscall/syscall_argument.py, ptrace/syscall/socketcall.py,
    ptrace/syscall/socketcall_struct.py, ptrace/syscall/linux_struct.py). *)
From Coq Require Import ZArith List Ascii String Bool.
From Verif Require Import PyBase Platform IntModel ToolsModel SigModel TabModel.
Import ListNotations.
Open Scope Z_scope.

(** ** Options, arguments, calls *)

(** ptrace/func_call.py 4-20 *)
Record options : Type := Options {
  o_write_types : bool;
  o_write_argname : bool;
  o_replace_socketcall : bool;
  o_string_max_length : Z;
  o_write_address : bool;
  o_max_array_count : Z;
  o_instr_pointer : bool
}.
Definition default_options : options := Options false false true 300 false 20 false.

(** ptrace/func_arg.py 20-28.  The value is always an integer (the default None is not used).  [a_text]: the attribute
    text. *)
Record arg : Type := Arg { a_value : Z; a_type : option text; a_name : option text; a_text : option text }.
Definition set_text (a : arg) (t : option text) : arg := Arg (a_value a) (a_type a) (a_name a) t.
(** ptrace/func_call.py 37-43.  The attribute argument_class is an argument of the functions below. *)
Record func : Type := Func { f_name : text; f_restype : option text; f_args : list arg }.
Definition set_args (f : func) (l : list arg) : func := Func (f_name f) (f_restype f) l.

(** Truth value of an optional string *)
Definition truthy (o : option text) : bool := match o with Some (_ :: _) => true | _ => false end.
Definition get (o : option text) : text := match o with Some t => t | None => [] end.

(** ptrace/func_call.py 45-48 *)
Definition addArgument (f : func) (value : Z) (name type : option text) : func :=
  set_args f (f_args f ++ [Arg value type name None]).
(** ptrace/func_call.py 50-51 *)
Definition clearArguments (f : func) : func := set_args f [].
(** ptrace/func_call.py 53-58: string keys *)
Fixpoint find_arg (key : text) (l : list arg) : res arg :=
  match l with
  | [] => Err EKeyError
  | a :: l => match a_name a with
              | Some n => if text_eqb n key then Ok a else find_arg key l
              | None => find_arg key l
              end
  end.
(** ptrace/func_call.py 59-61: integer keys *)
Definition nth_arg (n : nat) (l : list arg) : res arg :=
  match nth_error l n with Some a => Ok a | None => Err EIndexError end.

(** "except Exception": KeyboardInterrupt is no Exception, the last two are not Python exceptions *)
Definition is_exception (e : exn) : bool :=
  match e with EKeyboardInterrupt | ESystemExit _ | EUndefined | EDiverges => false | _ => true end.

(** ** repr() *)

(** One byte inside a bytes or ASCII string literal delimited by [q] (CPython: bytes_repr, unicode_repr). *)
Definition repr_char (q c : ascii) : text :=
  let n := b2z c in
  if Ascii.eqb c q || Ascii.eqb c "\"%char then ["\"%char; c]
  else if n =? 9 then T "\t"
  else if n =? 10 then T "\n"
  else if n =? 13 then T "\r"
  else if (n <? 32) || (127 <=? n) then T "\x" ++ fmt_int0 16 2 n
  else [c].
Definition quote_of (s : list byte) : ascii :=
  if char_in s "'"%char && negb (char_in s (z2b 34)) then z2b 34 else "'"%char.
Definition repr_ascii (s : list byte) : text :=
  let q := quote_of s in q :: List.concat (map (repr_char q) s) ++ [q].
Definition repr_bytes (s : list byte) : text := T "b" ++ repr_ascii s.

(** ** C structures *)

(** The field types in use: integers, char, char[n], struct in_addr, union in6_addr. *)
Inductive ctype : Type := CInt (signed : bool) (size : Z) | CChar | CChars (n : Z) | CInAddr | CIn6Addr.
Definition ct_size (c : ctype) : Z :=
  match c with CInt _ n => n | CChar => 1 | CChars n => n | CInAddr => 4 | CIn6Addr => 16 end.
Definition ct_align (c : ctype) : Z :=
  match c with CInt _ n => n | CChar => 1 | CChars _ => 1 | CInAddr => 4 | CIn6Addr => 4 end.
Definition struct : Type := list (text * ctype).
Definition round_up (off n : Z) : Z := (off + n - 1) / n * n.
(** Offsets of the fields (native alignment, as ctypes does) *)
Fixpoint struct_layout (off : Z) (s : struct) : list (text * (Z * ctype)) :=
  match s with
  | [] => []
  | (name, c) :: s => let o := round_up off (ct_align c) in (name, (o, c)) :: struct_layout (o + ct_size c) s
  end.
Fixpoint struct_end (off : Z) (s : struct) : Z :=
  match s with
  | [] => off
  | (_, c) :: s => struct_end (round_up off (ct_align c) + ct_size c) s
  end.
Definition struct_align (s : struct) : Z := fold_right (fun f m => Z.max (ct_align (snd f)) m) 1 s.
Definition struct_size (s : struct) : Z := round_up (struct_end 0 s) (struct_align s).

(** The value of a field, as getattr() gives it. *)
Inductive cvalue : Type := VInt (n : Z) | VBytes (s : list byte) | VInAddr (s_addr : Z) | VIn6Addr (addr16 : list Z).
(** Cut at the first NUL: what ctypes returns for a char array *)
Fixpoint until_nul (s : list byte) : list byte :=
  match s with [] => [] | c :: s => if b2z c =? 0 then [] else c :: until_nul s end.
Definition to_signed (size v : Z) : Z := if 2 ^ (8 * size - 1) <=? v then v - 2 ^ (8 * size) else v.
Definition get_cvalue (big : bool) (c : ctype) (s : list byte) : res cvalue :=
  match c with
  | CInt signed n => do v <- unpack_uint big (Z.to_nat n) s; Ok (VInt (if signed then to_signed n v else v))
  | CChar => Ok (VBytes s)
  | CChars _ => Ok (VBytes (until_nul s))
  | CInAddr => do v <- unpack_uint big 4 s; Ok (VInAddr v)
  | CIn6Addr => do l <- mapM (fun i => unpack_uint big 2 (slice (2 * i) (2 * i + 2) s)) (zrange 8); Ok (VIn6Addr l)
  end.

(** socket.inet_ntoa *)
Definition inet_ntoa (s : list byte) : text := join (T ".") (map (fun b => str_int (b2z b)) s).
(** ptrace/syscall/socketcall_struct.py 8-16 *)
Definition ip_int2str (ip : Z) : res text := do ip_bytes <- pack_uint true 4 ip; Ok (inet_ntoa ip_bytes).
(** ptrace/syscall/socketcall_struct.py 42-44 *)
Definition repr_in_addr (s_addr : Z) : res text := do ip <- ntoh_uint s_addr; ip_int2str ip.
(** ptrace/syscall/socketcall_struct.py 54-56 *)
Definition repr_in6_addr (addr16 : list Z) : res text :=
  do l <- mapM (fun part => do n <- ntoh_ushort part; Ok (fmt_int0 16 4 n)) addr16;
  Ok (T "<in6_addr " ++ join (T ":") l ++ T ">").
Definition repr_cvalue (v : cvalue) : res text :=
  match v with
  | VInt n => Ok (str_int n)
  | VBytes s => Ok (repr_bytes s)
  | VInAddr a => repr_in_addr a
  | VIn6Addr l => repr_in6_addr l
  end.

(** ptrace/syscall/socketcall_struct.py 19-34 *)
Definition sa_family_t (p : platform) : ctype := CInt false (if running_bsd p then 1 else 2).
Definition sockaddr (p : platform) : struct :=
  if running_bsd p then [(T "len", CInt false 1); (T "family", sa_family_t p)] else [(T "family", sa_family_t p)].
(** ptrace/syscall/socketcall_struct.py 61-74 *)
Definition sockaddr_in (p : platform) : struct :=
  if running_bsd p
  then [(T "sin_len", CInt false 1); (T "sin_family", sa_family_t p); (T "sin_port", CInt false 2); (T "sin_addr", CInAddr)]
  else [(T "sin_family", sa_family_t p); (T "sin_port", CInt false 2); (T "sin_addr", CInAddr)].
(** ptrace/syscall/socketcall_struct.py 77-93 *)
Definition sockaddr_in6 (p : platform) : struct :=
  if running_bsd p
  then [(T "sin6_len", CInt false 1); (T "sin6_family", sa_family_t p); (T "sin6_port", CInt false 2);
        (T "sin6_flowinfo", CInt false 4); (T "sin6_addr", CIn6Addr)]
  else [(T "sin6_family", sa_family_t p); (T "sin6_port", CInt false 2); (T "sin6_flowinfo", CInt false 4);
        (T "sin6_addr", CIn6Addr); (T "sin6_scope_ip", CInt false 4)].
(** ptrace/syscall/socketcall_struct.py 98-102 *)
Definition sockaddr_un (p : platform) : struct := [(T "sun_family", sa_family_t p); (T "sun_path", CChars 108)].
(** ptrace/syscall/socketcall_struct.py 106-113 *)
Definition sockaddr_nl (p : platform) : struct :=
  [(T "nl_family", sa_family_t p); (T "nl_pad", CInt false 2); (T "nl_pid", CInt false 4); (T "nl_groups", CInt false 4)].
(** ptrace/syscall/linux_struct.py 9-63 *)
Definition linux_structs (p : platform) : list (text * struct) :=
  let long := CInt true (word_size p) in
  [(T "timeval", [(T "tv_sec", long); (T "tv_usec", long)]);
   (T "timespec", [(T "tv_sec", long); (T "tv_nsec", long)]);
   (T "pollfd", [(T "fd", CInt true 4); (T "events", CInt true 2); (T "revents", CInt true 2)]);
   (T "rlimit", [(T "rlim_cur", long); (T "rlim_max", long)]);
   (T "new_utsname", [(T "sysname", CChars 65); (T "nodename", CChars 65); (T "release", CChars 65);
                      (T "version", CChars 65); (T "machine", CChars 65); (T "domainname", CChars 65)]);
   (T "user_desc", [(T "entry_number", CInt false 4); (T "base_addr", CInt false (word_size p)); (T "limit", CInt false 4);
                    (T "_bits_", CChar)])].
(** ptrace/syscall/syscall_argument.py 30-34 *)
Definition KNOWN_STRUCTS (p : platform) : list (text * struct) := if running_linux p then linux_structs p else [].

(** ptrace/syscall/socketcall.py 8-14, socket constants *)
Definition AF_FILE : Z := 1.
Definition AF_INET : Z := 2.
Definition AF_INET6 (p : platform) : Z := match p_os p with Linux => 10 | FreeBSD => 28 | OpenBSD => 24 | MacOSX => 30 end.
Definition AF_NETLINK : Z := 16.
(** ptrace/syscall/socketcall_constants.py 62-73 on a system with SOCK_CLOEXEC *)
Definition formatSocketType (sock_cloexec : Z) (value : Z) : text :=
  let cloexec := Z.land value sock_cloexec in
  let value := Z.land value (Z.lnot sock_cloexec) in
  let t := match dget Z.eqb value SOCKET_TYPE with Some t => t | None => str_int value end in
  if negb (cloexec =? 0) then t ++ T "|SOCK_CLOEXEC" else t.
(** SOCK_CLOEXEC of the socket module (Linux, FreeBSD, OpenBSD); macOS has none: no bit is special *)
Definition SOCK_CLOEXEC (p : platform) : Z :=
  match p_os p with Linux => 0x80000 | FreeBSD => 0x10000000 | OpenBSD => 0x8000 | MacOSX => 0 end.

(** ** Bit sets *)

(** ptrace/syscall/syscall_argument.py 66-70 *)
Definition byte_bits (b : byte) : list bool :=
  map (fun index => Z.land (Z.shiftr (b2z b) index) 1 =? 1) (zrange 8).
Definition iterBits (data : list byte) : list bool := List.concat (map byte_bits data).
(** [index for index, bit in enumerate(bits) if bit] *)
Fixpoint set_indices (n : Z) (bits : list bool) : list Z :=
  match bits with
  | [] => []
  | b :: bits => if b then n :: set_indices (n + 1) bits else set_indices (n + 1) bits
  end.

(** ** The text of an argument *)

(** The reading methods of the process: readBytes(address, size), readWord(address), readCString(address, max_size)
    (MemModel). *)
Record view : Type := View {
  v_bytes : Z -> Z -> res (list byte);
  v_word : Z -> res Z;
  v_cstring : Z -> Z -> res (list byte * bool)
}.

(** re.match of the pattern ( .* ) \[ ([0-9])+ \] (without the spaces): the base type and the last digit *)
Fixpoint last_digit_then_close (s : text) : option Z :=
  match s with
  | d :: rest =>
      if is_digit d then
        match rest with
        | c :: _ => if Ascii.eqb c "]"%char then Some (b2z d - 48) else last_digit_then_close rest
        | [] => None
        end
      else None
  | [] => None
  end.
Fixpoint array_match (s : text) : option (text * Z) :=
  match s with
  | [] => None
  | c :: rest =>
      match (if b2z c =? 10 then None else array_match rest) with
      | Some (base, n) => Some (c :: base, n)
      | None => if Ascii.eqb c "["%char
                then match last_digit_then_close rest with Some d => Some ([], d) | None => None end
                else None
      end
  end.

Section Text.
  (** [ns]: names of the signal module; [repr_fs data]: repr(os.fsdecode(data)), which depends on the locale and on
      Python's Unicode tables (for ASCII data it is [repr_ascii data]). *)
  Context (p : platform) (ns : namespace) (repr_fs : list byte -> text) (opts : options) (v : view).

  (** ptrace/func_arg.py 63-67 *)
  Definition formatPointer (value : text) (address : Z) : text :=
    if o_write_address opts then value ++ T " at " ++ formatAddress p address else value.

  (** ptrace/debugger/process.py 642-645 (see MemModel.readStruct) *)
  Definition read_raw (address size : Z) : res (list byte) :=
    do bytes <- v_bytes v address size;
    if zlen bytes <? size then Err EUndefined else Ok (pyslice None (Some size) bytes).
  Definition read_cint (address : Z) : res Z :=
    do s <- read_raw address 4; do n <- unpack_uint (p_bigendian p) 4 s; Ok (to_signed 4 n).

  (** ptrace/syscall/socketcall.py 61-72, ptrace/syscall/syscall_argument.py 54-58, 244-248 *)
  Definition formatStructValue (struct_name name : text) (value : cvalue) : res (option text) :=
    if (text_eqb struct_name (T "sockaddr_in") && text_eqb name (T "sin_port")) ||
       (text_eqb struct_name (T "sockaddr_in6") && text_eqb name (T "sin6_port")) then
      match value with
      | VInt n => do n <- ntoh_ushort n; Ok (Some (str_int n))
      | _ => Err EStructError
      end
    else Ok None.
  (** ptrace/func_arg.py 75-86: one field *)
  Definition format_field (struct_name name : text) (value : cvalue) : res text :=
    do t <- match formatStructValue struct_name name value with
            | Ok (Some t) => Ok t
            | Ok None => repr_cvalue value
            | Err e => if is_exception e then repr_cvalue value else Err e
            end;
    Ok (name ++ T "=" ++ t).
  (** ptrace/func_arg.py 69-89; [value] = self.value *)
  Definition readStruct (value : Z) (struct_name : text) (s : struct) : res text :=
    do data <- read_raw value (struct_size s);
    do l <- mapM (fun field =>
                    let '(name, (off, c)) := field in
                    do x <- get_cvalue (p_bigendian p) c (slice off (off + ct_size c) data);
                    format_field struct_name name x) (struct_layout 0 s);
    Ok (formatPointer (T "<" ++ struct_name ++ T " " ++ join (T ", ") l ++ T ">") value).

  (** ptrace/func_arg.py 94-102 with basetype c_int *)
  Definition readArray_int (address count : Z) : res text :=
    do data <- read_raw address (4 * count);
    do l <- mapM (fun i => do n <- unpack_uint (p_bigendian p) 4 (slice (4 * i) (4 * i + 4) data); Ok (str_int (to_signed 4 n)))
                 (zrange (Z.to_nat count));
    Ok (formatPointer (T "<(" ++ join (T ", ") l ++ T ")>") address).

  (** ptrace/syscall/syscall_argument.py 193-197 *)
  Definition readBits (address count : Z) : res (list Z) :=
    do bytes <- v_bytes v address (count / 8);
    Ok (set_indices 0 (iterBits bytes)).
  (** ptrace/syscall/syscall_argument.py 199-210 *)
  Definition readCString (address : Z) : res text :=
    if negb (address =? 0) then
      do r <- v_cstring v address (o_string_max_length opts);
      let '(data, truncated) := r in
      let t := repr_fs data in
      Ok (formatPointer (if truncated then t ++ T "..." else t) address)
    else Ok (formatPointer (T "NULL") address).
  (** ptrace/syscall/syscall_argument.py 212-224 *)
  Definition readString (address size : Z) : res text :=
    if negb (address =? 0) then
      let max_len := o_string_max_length opts in
      let truncated := max_len <? size in
      let size := Z.min size max_len in
      do data <- v_bytes v address size;
      let t := repr_fs data in
      Ok (formatPointer (if truncated then t ++ T "..." else t) address)
    else Ok (formatPointer (T "NULL") address).
  (** ptrace/syscall/syscall_argument.py 232-240 *)
  Fixpoint readCStringArray_loop (fuel : nat) (address max_count : Z) (text : list text) : res (list PyBase.text) :=
    match fuel with
    | O => Err EDiverges
    | S fuel =>
        do str_addr <- v_word v address;
        let address := address + word_size p in
        do s <- readCString str_addr;
        let text := text ++ [s] in
        if str_addr =? 0 then Ok text
        else if max_count <=? zlen text then
          Ok (text ++ [T "(... more than " ++ str_int max_count ++ T " strings ...)"])
        else readCStringArray_loop fuel address max_count text
    end.
  (** ptrace/syscall/syscall_argument.py 226-242 *)
  Definition readCStringArray (address : Z) : res text :=
    if address =? 0 then Ok (T "NULL")
    else
      do l <- readCStringArray_loop (S (Z.to_nat (o_max_array_count opts))) address (o_max_array_count opts) [];
      Ok (formatPointer (T "<(" ++ join (T ", ") l ++ T ")>") address).

  (** ptrace/syscall/socketcall.py 16-24 *)
  Definition formatOptVal (f : func) (value : Z) : res (option text) :=
    do optlen <- find_arg (T "optlen") (f_args f);
    if a_value optlen =? 4 then
      do n <- read_cint value;
      Ok (Some (formatPointer (T "<" ++ str_int n ++ T ">") value))
    else Ok None.
  (** ptrace/syscall/socketcall.py 27-41 *)
  Definition formatSockaddr (value : Z) : res text :=
    do data <- read_raw value (struct_size (sockaddr p));
    do family <- match dget text_eqb (T "family") (struct_layout 0 (sockaddr p)) with
                 | Some (off, c) => get_cvalue (p_bigendian p) c (slice off (off + ct_size c) data)
                 | None => Err EAttributeError
                 end;
    match family with
    | VInt family =>
        if family =? AF_INET then readStruct value (T "sockaddr_in") (sockaddr_in p)
        else if family =? AF_INET6 p then readStruct value (T "sockaddr_in6") (sockaddr_in6 p)
        else if family =? AF_FILE then readStruct value (T "sockaddr_un") (sockaddr_un p)
        else if running_linux p && (family =? AF_NETLINK) then readStruct value (T "sockaddr_nl") (sockaddr_nl p)
        else
          let name := match dget Z.eqb family SOCKET_FAMILY with Some t => t | None => str_int family end in
          Ok (formatPointer (T "<sockaddr family=" ++ name ++ T ">") value)
    | _ => Err ETypeError
    end.

  (** ptrace/syscall/syscall_argument.py 154-191; [f] = self.function, [address] = self.value *)
  Definition formatValuePointer (f : func) (address : Z) (argtype : text) : res (option text) :=
    if address =? 0 then Ok (Some (T "NULL"))
    else
      let argtype := if starts_with (T "struct ") argtype then skipn 7 argtype else argtype in
      if text_eqb argtype (T "sockaddr") then do t <- formatSockaddr address; Ok (Some t)
      else if text_eqb argtype (T "int") then
        do pointee <- read_cint address;
        Ok (Some (formatPointer (T "<" ++ str_int pointee ++ T ">") address))
      else
        match dget text_eqb argtype (KNOWN_STRUCTS p) with
        | Some s => do t <- readStruct address argtype s; Ok (Some t)
        | None =>
            if running_linux p && text_eqb argtype (T "fd_set") then
              do nfds <- nth_arg 0 (f_args f);
              do l <- readBits address FD_SETSIZE;
              let l := filter (fun x => x <? a_value nfds) l in
              Ok (Some (formatPointer (T "[" ++ join (T " ") (map str_int l) ++ T "]") address))
            else if text_eqb (f_name f) (T "rt_sigprocmask") && text_eqb argtype (T "sigset_t") then
              do size <- find_arg (T "sigsetsize") (f_args f);
              do l <- readBits address (a_value size * 8);
              Ok (Some (formatPointer (T "<sigset=(" ++ join (T " ") (map (fun key => signalName ns (key + 1)) l) ++ T ")>") address))
            else Ok None
        end.

  (** ptrace/syscall/syscall_argument.py 36-47 *)
  Definition argument_callback (syscall name : text) : option (func -> Z -> res (option text)) :=
    let simple (g : Z -> text) := Some (fun (_ : func) value => Ok (Some (g value))) in
    let is (a b : string) := text_eqb syscall (T a) && text_eqb name (T b) in
    if is "access"%string "mode"%string then simple formatAccessMode
    else if is "open"%string "flags"%string then simple formatOpenFlags
    else if is "open"%string "mode"%string then simple formatOpenMode
    else if is "openat"%string "dirfd"%string then simple formatDirFd
    else if is "openat"%string "flags"%string then simple formatOpenFlags
    else if is "openat"%string "mode"%string then simple formatOpenMode
    else if is "name_to_handle_at"%string "dirfd"%string then simple formatDirFd
    else if is "mmap"%string "prot"%string then simple formatMmapProt
    else if is "mmap2"%string "prot"%string then simple formatMmapProt
    else if is "clone"%string "flags"%string then simple (formatCloneFlags (signalName ns))
    else if is "socket"%string "type"%string then simple (formatSocketType (SOCK_CLOEXEC p))
    else if is "setsockopt"%string "optval"%string then Some formatOptVal
    else None.

  (** ptrace/func_arg.py 30-45: getText() of an argument of the call [f]; the new text is the value of the attribute.
      [create] is createText(). *)
  Definition getText_ (create : arg -> res (option text)) (a : arg) : res text :=
    if truthy (a_text a) then Ok (get (a_text a))
    else
      match create a with
      | Ok (Some t) => Ok t
      | Ok None => Ok (if truthy (a_type a) && ends_with (T "*") (get (a_type a))
                       then formatAddress p (a_value a) else str_int (a_value a))
      | Err e => if is_exception e then Ok (str_int (a_value a)) else Err e
      end.
  (** ptrace/func_arg.py 47-58 *)
  Definition format_with (a : arg) (t : text) : text :=
    if o_write_argname opts && truthy (a_name a) then
      if o_write_types opts && truthy (a_type a)
      then get (a_type a) ++ T " " ++ get (a_name a) ++ T "=" ++ t
      else get (a_name a) ++ T "=" ++ t
    else if o_write_types opts && truthy (a_type a) then T "(" ++ get (a_type a) ++ T ")" ++ t
    else t.
  (** ptrace/func_call.py 63-74: the argument texts are joined, trailing empty ones dropped *)
  Fixpoint drop_empty (l : list text) : list text :=
    match l with
    | [] => []
    | x :: l => match drop_empty l, x with
                | [], [] => []
                | l, _ => x :: l
                end
    end.
  Definition format_call (f : func) (arguments : list text) : text :=
    let arguments := join (T ", ") (drop_empty arguments) in
    if truthy (f_restype f) && o_write_types opts
    then get (f_restype f) ++ T " " ++ f_name f ++ T "(" ++ arguments ++ T ")"
    else f_name f ++ T "(" ++ arguments ++ T ")".

  (** ptrace/syscall/socketcall.py 44-58: arguments read from successive words.  [name] = socketcall.getText(). *)
  Fixpoint socket_args (formats : list (text * text)) (address : Z) : res (list arg) :=
    match formats with
    | [] => Ok []
    | (argtype, argname) :: formats =>
        do value <- v_word v address;
        do l <- socket_args formats (address + word_size p);
        Ok (Arg value (Some argtype) (Some argname) None :: l)
    end.
  Definition setupSocketCall (name : text) (address : Z) : res func :=
    match dget text_eqb name SYSCALL_PROTOTYPES with
    | None => Err EKeyError
    | Some (restype, formats) =>
        do l <- socket_args formats address;
        Ok (Func name (Some restype) l)
    end.

  (** ptrace/syscall/syscall_argument.py 124-152: depending on the type *)
  Definition createText_type (f : func) (value : Z) (argtype : text) : res (option text) :=
    if ends_with (T "*") argtype then
      match formatValuePointer f value (strip (removelast argtype)) with
      | Ok (Some (c :: t)) => Ok (Some (c :: t))
      | Ok _ => Ok (Some (formatAddress p value))
      | Err e => if is_exception e then Ok (Some (formatAddress p value)) else Err e
      end
    else
      let rest :=
        if existsb (text_eqb argtype) [T "unsigned int"; T "unsigned long"; T "u32"] then Ok (Some (str_int value))
        else if existsb (text_eqb argtype) INTEGER_TYPES then Ok (Some (str_int (uint2int value)))
        else Ok (Some (formatWordHex p value)) in
      match array_match argtype with
      | Some (base, count) =>
          if text_eqb base (T "int") then do t <- readArray_int value count; Ok (Some t) else rest
      | None => rest
      end.
  (** ptrace/syscall/syscall_argument.py 75-152.  [first]: the text of argument 0 (function[0].getText()), needed for
      the second argument of socketcall only. *)
  Definition createText_ (first : res text) (f : func) (a : arg) : res (option text) :=
    if negb (truthy (a_type a)) || negb (truthy (a_name a)) then Ok (Some (formatWordHex p (a_value a)))
    else
      let value := a_value a in
      let argtype := get (a_type a) in
      let name := get (a_name a) in
      let syscall := f_name f in
      let special :=
        match dget text_eqb syscall (SYSCALL_ARG_DICT p) with
        | Some d => match dget text_eqb name d with
                    | Some d => dget Z.eqb value d
                    | None => None
                    end
        | None => None
        end in
      match special with
      | Some t => Ok (Some t)
      | None =>
          match argument_callback syscall name with
          | Some callback => callback f value
          | None =>
              if text_eqb syscall (T "execve") && (text_eqb name (T "argv") || text_eqb name (T "envp")) then
                do t <- readCStringArray value; Ok (Some t)
              else if text_eqb syscall (T "socketcall") && text_eqb name (T "call") then
                Ok (Some match dget Z.eqb value SOCKETCALL with Some t => t | None => str_int value end)
              else if text_eqb syscall (T "socketcall") && text_eqb name (T "args") then
                do call <- first;
                do f <- setupSocketCall call value;
                (* the arguments are plain FunctionArgument objects: createText is repr(value), func_arg.py 60-61 *)
                let t := format_call f (map (fun a => format_with a (str_int (a_value a))) (f_args f)) in
                Ok (Some (formatPointer (T "<" ++ t ++ T ">") value))
              else
                do shown <- (if text_eqb syscall (T "write") && text_eqb name (T "buf") then
                               do fd <- nth_arg 0 (f_args f);
                               if a_value fd <? 3 then
                                 do length <- nth_arg 2 (f_args f);
                                 do t <- readString value (a_value length);
                                 Ok (Some t)
                               else Ok None
                             else Ok None);
                match shown with
                | Some t => Ok (Some t)
                | None =>
                    if text_eqb name (T "signum") then Ok (Some (signalName ns value))
                    else
                      let argtype := if starts_with (T "const ") argtype then skipn 6 argtype else argtype in
                      if existsb (text_eqb name) FILENAME_ARGUMENTS && text_eqb argtype (T "char *") then
                        do t <- readCString value; Ok (Some t)
                      else createText_type f value argtype
                end
          end
      end.
  (** The text of argument 0 when it does not itself need it *)
  Definition first_text (f : func) : res text :=
    do a <- nth_arg 0 (f_args f); getText_ (createText_ (Err EDiverges) f) a.
  Definition createText (f : func) (a : arg) : res (option text) := createText_ (first_text f) f a.
  Definition getText (f : func) (a : arg) : res text := getText_ (createText f) a.

  (** FunctionCall.format() of a system call: func_call.py 63-74.  The texts are remembered in the arguments. *)
  Definition format_args (f : func) : res (list text) := mapM (getText f) (f_args f).
  Definition remember (l : list arg) (texts : list text) : list arg :=
    map (fun at_ => set_text (fst at_) (Some (snd at_))) (combine l texts).
  Definition format (f : func) : res (func * text) :=
    do texts <- format_args f;
    Ok (set_args f (remember (f_args f) texts),
        format_call f (map (fun at_ => format_with (fst at_) (snd at_)) (combine (f_args f) texts))).
End Text.
