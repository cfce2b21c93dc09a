(** * CallModel: ptrace/binding/func.py and cptrace/cptrace.c, the calls to ptrace(2). *)
From Coq Require Import ZArith List Ascii String Bool.
From Verif Require Import PyBase Platform IntModel.
Import ListNotations.
Open Scope Z_scope.

(** ptrace/binding/func.py 133-144: the C extension if it can be imported, else ctypes. *)
Inductive backend : Type := Ctypes | Cptrace.

(** What the kernel is asked: the numbers that arrive in the system call. *)
Record request : Type := Req {
  rq_command : Z;
  rq_pid : Z;
  rq_arg1 : Z;
  rq_arg2 : Z
}.
(** What the kernel answers: success with a value (for the PEEK requests the word
    read, otherwise 0) or failure with an errno. *)
Inductive kernel_result : Type := KOk (v : Z) | KErr (errno : Z).

(** Calls made and result of a function that talks to the kernel. *)
Definition call (A : Type) : Type := (list request * res A)%type.

(** ptrace/binding/func.py 42-54 and 97-99, 56-115 (numbers that depend on the system) *)
Definition PTRACE_TRACEME : Z := 0.
Definition PTRACE_PEEKTEXT : Z := 1.
Definition PTRACE_PEEKDATA : Z := 2.
Definition PTRACE_PEEKUSER : Z := 3.
Definition PTRACE_POKETEXT : Z := 4.
Definition PTRACE_POKEDATA : Z := 5.
Definition PTRACE_POKEUSER : Z := 6.
Definition PTRACE_CONT : Z := 7.
Definition PTRACE_KILL : Z := 8.
Definition PTRACE_SINGLESTEP (p : platform) : Z := if running_openbsd p then 32 else 9.
Definition PTRACE_ATTACH (p : platform) : Z :=
  match p_os p with OpenBSD => 9 | FreeBSD | MacOSX => 10 | Linux => 16 end.
Definition PTRACE_DETACH (p : platform) : Z :=
  match p_os p with OpenBSD => 10 | FreeBSD | MacOSX => 11 | Linux => 17 end.
(** not defined on OpenBSD: using it there is a NameError *)
Definition PTRACE_SYSCALL (p : platform) : option Z :=
  match p_os p with OpenBSD => None | FreeBSD | MacOSX => Some 22 | Linux => Some 24 end.
Definition PTRACE_SETOPTIONS : Z := 0x4200.
Definition PTRACE_GETEVENTMSG : Z := 0x4201.

(** The libc function ptrace(), not part of the repository.  Failure: -1 and errno.
    Success of a PEEK: the word; glibc and the BSD libcs then clear errno
    ([clears = true]), musl leaves it alone.  Success of another request: errno is left alone. *)
Definition is_peek (command : Z) : bool := (1 <=? command) && (command <=? 3).
Definition libc_ptrace (p : platform) (clears : bool) (errno0 : Z) (rq : request)
  (k : kernel_result) : Z * Z :=
  match k with
  | KOk v => (v, if clears && is_peek (rq_command rq) then 0 else errno0)
  | KErr e => (max_uint p, e)
  end.

(** ptrace/binding/func.py 147-169.
    ctypes converts arguments to unsigned long by dropping high bits (no error); the
    C extension parses them with format "L" (cptrace.c 57-60), a signed 64-bit integer, and raises
    OverflowError outside its range.  (On 32-bit machines "L" stores 8 bytes into a 4-byte
    variable; that memory corruption is not modelled.)
    [errno0] is the errno left by earlier calls; cptrace.c 24 clears it first.  With the C extension
    the errno reported is get_errno(), ctypes' private copy, which line 150 set to 0. *)
Definition c_args (be : backend) (p : platform) (command pid arg1 arg2 : Z) : res request :=
  match be with
  | Ctypes => Ok (Req (truncateWord p command) (truncateWord p pid) (truncateWord p arg1) (truncateWord p arg2))
  | Cptrace =>
      if (arg1 <? - 2 ^ 63) || (2 ^ 63 <=? arg1) || (arg2 <? - 2 ^ 63) || (2 ^ 63 <=? arg2)
      then Err EOverflowError
      else Ok (Req (truncateWord p command) (truncateWord p pid) (truncateWord p arg1) (truncateWord p arg2))
  end.
Definition ptrace (be : backend) (p : platform) (clears : bool) (errno0 : Z)
  (kernel : request -> kernel_result)
  (command pid arg1 arg2 : Z) (check_errno : bool) : call Z :=
  match c_args be p command pid arg1 arg2 with
  | Err e => ([], Err e)
  | Ok rq =>
      let errno0 := match be with Ctypes => errno0 | Cptrace => 0 end in
      let (result, errno) := libc_ptrace p clears errno0 rq (kernel rq) in
      ([rq],
       if ulong2long p result =? -1 then
         if negb check_errno || negb (errno =? 0)
         then Err (EPtraceError (Some (match be with Ctypes => errno | Cptrace => 0 end)))
         else Ok result
       else Ok result)
  end.

Section Wrappers.
  Context (be : backend) (p : platform) (clears : bool) (errno0 : Z)
          (kernel : request -> kernel_result).
  Let ptrace' := ptrace be p clears errno0 kernel.
  Definition ignore (c : call Z) : call unit :=
    (fst c, match snd c with Ok _ => Ok tt | Err e => Err e end).

  (** ptrace/binding/func.py 172-173, 176-177, 180-181 *)
  Definition ptrace_traceme : call unit := ignore (ptrace' PTRACE_TRACEME 0 0 0 false).
  Definition ptrace_attach (pid : Z) : call unit := ignore (ptrace' (PTRACE_ATTACH p) pid 0 0 false).
  Definition ptrace_detach (pid signal : Z) : call unit :=
    ignore (ptrace' (PTRACE_DETACH p) pid 0 signal false).

  (** ptrace/binding/func.py 184-189 *)
  Definition peek (command pid address : Z) : call Z :=
    if negb (address mod word_size p =? 0) then ([], Err (EPtraceError None))
    else ptrace' command pid address 0 true.
  (** ptrace/binding/func.py 192-197 *)
  Definition poke (command pid address word : Z) : call unit :=
    if negb (address mod word_size p =? 0) then ([], Err (EPtraceError None))
    else ignore (ptrace' command pid address word false).

  (** ptrace/binding/func.py 200-221 *)
  Definition ptrace_peektext (pid address : Z) : call Z := peek PTRACE_PEEKTEXT pid address.
  Definition ptrace_peekdata (pid address : Z) : call Z := peek PTRACE_PEEKDATA pid address.
  Definition ptrace_peekuser (pid address : Z) : call Z := peek PTRACE_PEEKUSER pid address.
  Definition ptrace_poketext (pid address word : Z) : call unit := poke PTRACE_POKETEXT pid address word.
  Definition ptrace_pokedata (pid address word : Z) : call unit := poke PTRACE_POKEDATA pid address word.
  Definition ptrace_pokeuser (pid address word : Z) : call unit := poke PTRACE_POKEUSER pid address word.

  (** ptrace/binding/func.py 224-225 *)
  Definition ptrace_kill (pid : Z) : call unit := ignore (ptrace' PTRACE_KILL pid 0 0 false).
  (** ptrace/binding/func.py 232-233 *)
  Definition ptrace_setoptions (pid options : Z) : call unit :=
    ignore (ptrace' PTRACE_SETOPTIONS pid 0 options false).
  (** ptrace/binding/func.py 241-245 (Linux: address 0) and 303-307 (BSD: address 1) *)
  Definition ptrace_syscall (pid signum : Z) : call unit :=
    match PTRACE_SYSCALL p with
    | Some n => ignore (ptrace' n pid (if running_linux p then 0 else 1) signum false)
    | None => ([], Err ENameError)
    end.
  Definition ptrace_cont (pid signum : Z) : call unit :=
    ignore (ptrace' PTRACE_CONT pid (if running_linux p then 0 else 1) signum false).
  (** ptrace/binding/func.py 299-300 and 319-320 *)
  Definition ptrace_singlestep (pid : Z) : call unit :=
    ignore (ptrace' (PTRACE_SINGLESTEP p) pid (if running_linux p then 0 else 1) 0 false).
End Wrappers.

(** ptrace/binding/func.py 235-238: the kernel stores the event message as one word at
    the address of a C int, of which the code then reads the value.  The buffer behind a ctypes
    c_int is larger than a word, so the store itself is harmless. *)
Definition geteventmsg_value (p : platform) (message : Z) : res Z :=
  do stored <- word2bytes p message;
  do u <- unpack_uint (p_bigendian p) 4 (firstn 4 stored);
  Ok (uint2int32 u).
