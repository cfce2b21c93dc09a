(** * ShownSpec: vocabulary for statements about which decoder shows an argument (C127). *)
From Coq Require Import ZArith List Ascii String Bool.
From Verif Require Import PyBase Platform SigModel TabModel ToolsModel ArgModel.
Import ListNotations.
Open Scope Z_scope.

(** The constant [value] of the argument [name] of [call] has the name [t] in the tables. *)
Definition named (p : platform) (call name : text) (value : Z) (t : text) : Prop :=
  exists args l, In (call, args) (SYSCALL_ARG_DICT p) /\ In (name, l) args /\ In (value, t) l.
(** Arguments shown as flags, modes or descriptors *)
Definition decoders (p : platform) (ns : namespace) : list ((text * text) * (Z -> text)) :=
  [((T "access", T "mode"), formatAccessMode);
   ((T "open", T "flags"), formatOpenFlags); ((T "open", T "mode"), formatOpenMode);
   ((T "openat", T "dirfd"), formatDirFd); ((T "openat", T "flags"), formatOpenFlags); ((T "openat", T "mode"), formatOpenMode);
   ((T "name_to_handle_at", T "dirfd"), formatDirFd);
   ((T "mmap", T "prot"), formatMmapProt); ((T "mmap2", T "prot"), formatMmapProt);
   ((T "clone", T "flags"), formatCloneFlags (signalName ns));
   ((T "socket", T "type"), formatSocketType (SOCK_CLOEXEC p))].
Definition decoded_pairs : list (text * text) :=
  [(T "access", T "mode"); (T "open", T "flags"); (T "open", T "mode"); (T "openat", T "dirfd"); (T "openat", T "flags");
   (T "openat", T "mode"); (T "name_to_handle_at", T "dirfd"); (T "mmap", T "prot"); (T "mmap2", T "prot"); (T "clone", T "flags");
   (T "socket", T "type"); (T "setsockopt", T "optval"); (T "execve", T "argv"); (T "execve", T "envp"); (T "socketcall", T "call");
   (T "socketcall", T "args"); (T "write", T "buf")].
(** The argument [a] of [f] has no decoder of its own: it is shown by its type. *)
Definition plain (p : platform) (f : func) (a : arg) : Prop :=
  exists name, a_name a = Some name /\ name <> [] /\ name <> T "signum" /\ ~ In (f_name f, name) decoded_pairs /\
    forall t, ~ named p (f_name f) name (a_value a) t.
(** The type of [a] without a qualifier "const" *)
Definition has_type (a : arg) (ty : text) : Prop :=
  ty <> [] /\ starts_with (T "const ") ty = false /\ (a_type a = Some ty \/ a_type a = Some (T "const " ++ ty)).
(** Errors which do not end the tracer: neither an interrupt of the user nor exit(), and the model knows them. *)
Definition harmless (e : exn) : Prop := e <> EKeyboardInterrupt /\ (forall c, e <> ESystemExit c) /\ e <> EUndefined /\ e <> EDiverges.
(** What a pointer of one of these types points to is shown (besides the strings of file names) *)
Definition shown_targets (p : platform) (call : text) : list text :=
  [T "sockaddr"; T "int"] ++
  (if running_linux p then [T "timeval"; T "timespec"; T "pollfd"; T "rlimit"; T "new_utsname"; T "user_desc"; T "fd_set"] else []) ++
  (if text_eqb call (T "rt_sigprocmask") then [T "sigset_t"] else []).
(** "base *" *)
Definition pointer_type (ty base : text) : Prop := ty = base ++ T " *" /\ strip base = base.
(** SOCK_CLOEXEC of the headers of the system *)
Definition cloexec_bit (s : os) : option Z :=
  match s with Linux => Some (2 ^ 19) | FreeBSD => Some (2 ^ 28) | OpenBSD => Some (2 ^ 15) | MacOSX => None end.
