(** * KernProps: C73, C74, C79, C80, the tables of the library against the headers. *)
From Coq Require Import ZArith List Ascii String Bool Lia.
From Verif Require Import PyBase Platform StructModel StructProofs RegModel ToolsModel TabModel TabSpec TabProofs ArgModel CtModel KernSpec KernProofs.
Import ListNotations.
Open Scope Z_scope.

(** ** C73: registers and other structures of the debugging interface *)

(** Same size, every register of the kernel at its place, no field that the kernel does not have (names "__..." are padding). *)
Theorem c73_registers_partial : forall p regs size, kernel_registers p = Some (regs, size) -> ~ (p_os p = OpenBSD /\ p_cpu p = X86_64) ->
  sizeof (register_fields p) = size /\
  (forall name off sz, In (name, (off, sz)) regs -> dget text_eqb name (layout 0 (register_fields p)) = Some (off, sz)) /\
  (forall name, In name (map fst (register_fields p)) -> starts_with (T "__") name = true \/ In name (map fst regs)).
Proof. exact registers. Qed.
Print Assumptions c73_registers_partial.
(** OpenBSD on 64-bit Intel has the structure of 32-bit Intel *)
Theorem c73_openbsd_refuted : exists p regs size, kernel_registers p = Some (regs, size) /\ sizeof (register_fields p) <> size /\
  In (T "rip", (128, 8)) regs /\ ~ In (T "rip") (REGISTER_NAMES p) /\ CPU_INSTR_POINTER p = Some (T "rip").
Proof. exact openbsd_amd64. Qed.
Print Assumptions c73_openbsd_refuted.
Example c73_ex : kernel_registers linux_x86_64 = Some (x86_64_registers, 216) /\ In (T "rip", (128, 8)) x86_64_registers /\
  dget text_eqb (T "rip") (layout 0 (register_fields linux_x86_64)) = Some (128, 8).
Proof. split; [reflexivity|]. split; [vm_compute; tauto|vm_compute; reflexivity]. Qed.

Theorem c73_fpregs : forall p, p_os p = Linux -> p_cpu p = X86_64 \/ p_cpu p = I386 ->
  leaves [] 0 (user_fpregs_struct p) = flat (fst (kernel_fpregs (p_64bits p))) /\
  ct_sizeof (user_fpregs_struct p) = snd (kernel_fpregs (p_64bits p)).
Proof. exact fpregs. Qed.
Print Assumptions c73_fpregs.
Theorem c73_fpxregs : forall p, p_os p = Linux -> if p_64bits p then user_fpxregs_struct p = None else
  exists c, user_fpxregs_struct p = Some c /\ leaves [] 0 c = flat (fst kernel_fpxregs) /\ ct_sizeof c = snd kernel_fpxregs.
Proof. exact fpxregs. Qed.
Print Assumptions c73_fpxregs.
Theorem c73_iovec : forall p, leaves [] 0 (iovec_struct p) = flat (fst (kernel_iovec (p_64bits p))) /\
  ct_sizeof (iovec_struct p) = snd (kernel_iovec (p_64bits p)).
Proof. exact iovec. Qed.
Print Assumptions c73_iovec.
Theorem c73_io_desc : forall p, leaves [] 0 (ptrace_io_desc p) = flat (fst (kernel_io_desc (p_64bits p))) /\
  ct_sizeof (ptrace_io_desc p) = snd (kernel_io_desc (p_64bits p)).
Proof. exact io_desc. Qed.
Print Assumptions c73_io_desc.
Example c73_structs_ex : In ([T "mxcsr"], (24, 4)) (leaves [] 0 (user_fpregs_struct linux_x86_64)) /\
  ct_sizeof (ptrace_io_desc freebsd_x86_64) = 32 /\ p_64bits linux_i386 = false.
Proof. split; [vm_compute; tauto|]. split; vm_compute; reflexivity. Qed.

(** The fields of siginfo that the debugger uses are where the kernel puts them ... *)
Theorem c73_siginfo_partial : forall p name o s, In (name, (o, s)) (kernel_siginfo (p_64bits p)) ->
  name <> T "uid" -> (p_64bits p = true -> name <> T "utime" /\ name <> T "stime") ->
  exists path, In (path ++ [name], (o, s)) (leaves [] 0 (siginfo p)).
Proof. exact siginfo_fields. Qed.
Print Assumptions c73_siginfo_partial.
(** ... but a user identifier is cut to 16 bits, the times are elsewhere on 64 bits, and there the structure is too large. *)
Theorem c73_siginfo_refuted : exists p, p = linux_x86_64 /\
  In (T "uid", (20, 4)) (kernel_siginfo true) /\ si_field p (T "uid") = Some (20, 2) /\
  In (T "utime", (32, 8)) (kernel_siginfo true) /\ si_field p (T "utime") = Some (28, 4) /\
  ct_sizeof (siginfo p) = 136 /\ SI_MAX_SIZE = 128.
Proof. exact siginfo_wrong. Qed.
Print Assumptions c73_siginfo_refuted.
Theorem c73_siginfo_size : forall p, p_64bits p = false -> ct_sizeof (siginfo p) = SI_MAX_SIZE.
Proof. exact siginfo_size. Qed.
Print Assumptions c73_siginfo_size.
Example c73_siginfo_ex : In (T "_addr", (16, 8)) (kernel_siginfo true) /\ si_field linux_x86_64 (T "_addr") = Some (16, 8) /\
  In (T "status", (20, 4)) (kernel_siginfo false) /\ si_field linux_i386 (T "status") = Some (20, 4).
Proof. split; [vm_compute; tauto|]. split; [vm_compute; reflexivity|]. split; [vm_compute; tauto|vm_compute; reflexivity]. Qed.

(** ** C74: constants and structures of system call arguments *)
Theorem c74_open_flags_partial : forall n name, name <> T "O_SYNC" -> name <> T "O_DSYNC" ->
  In (n, name) OPEN_FLAGS_BITMASK <-> In (n, name) linux_open_flags.
Proof. exact open_flags. Qed.
Print Assumptions c74_open_flags_partial.
(** the bit named O_SYNC is O_DSYNC *)
Theorem c74_open_sync_refuted : exists n, In (n, T "O_SYNC") OPEN_FLAGS_BITMASK /\ In (n, T "O_DSYNC") linux_open_flags /\
  ~ In (n, T "O_SYNC") linux_open_flags.
Proof. exact open_sync. Qed.
Print Assumptions c74_open_sync_refuted.
Theorem c74_open_modes : forall n name, In (n, name) OPEN_MODE_BITMASK <-> In (n, name) linux_file_modes.
Proof. exact open_modes. Qed.
Print Assumptions c74_open_modes.
Theorem c74_access_modes : forall n name, In (n, name) ACCESS_MODE_BITMASK <-> In (n, name) posix_access_modes.
Proof. exact access_modes. Qed.
Print Assumptions c74_access_modes.
Theorem c74_protections : forall n name, In (n, name) MMAP_PROT_BITMASK <-> In (n, name) linux_protections /\ name <> T "PROT_SEM".
Proof. exact protections. Qed.
Print Assumptions c74_protections.
Theorem c74_clone_flags_partial : forall n name, name <> T "CLONE_STOPPED" -> In (n, name) CLONE_FLAGS_BITMASK -> In (n, name) linux_clone_flags.
Proof. exact clone_flags. Qed.
Print Assumptions c74_clone_flags_partial.
Theorem c74_clone_flags_known_partial : forall n name, In (n, name) linux_clone_flags -> n < 2 ^ 28 -> name <> T "CLONE_PIDFD" ->
  name <> T "CLONE_NEWCGROUP" -> In (n, name) CLONE_FLAGS_BITMASK.
Proof. exact clone_flags_all. Qed.
Print Assumptions c74_clone_flags_known_partial.
(** the bit named CLONE_STOPPED (removed from Linux 2.6.38) is CLONE_NEWCGROUP *)
Theorem c74_clone_stopped_refuted : exists n, In (n, T "CLONE_STOPPED") CLONE_FLAGS_BITMASK /\ In (n, T "CLONE_NEWCGROUP") linux_clone_flags.
Proof. exact clone_stopped. Qed.
Print Assumptions c74_clone_stopped_refuted.
Example c74_flags_ex : In (0x400, T "O_APPEND") linux_open_flags /\ In (0x40, T "S_IXUSR") linux_file_modes /\ In (4, T "R_OK") posix_access_modes /\
  In (0x1000000, T "PROT_GROWSDOWN") linux_protections /\ In (0x10000, T "CLONE_THREAD") linux_clone_flags.
Proof. repeat split; apply (mem_In entry_eqb entry_eqb_eq); vm_compute; reflexivity. Qed.

Theorem c74_socketcalls : forall n name, In (n, name) SOCKETCALL -> In (n, name) linux_socketcalls.
Proof. exact socketcalls. Qed.
Print Assumptions c74_socketcalls.
Theorem c74_socketcalls_known : forall n name, In (n, name) linux_socketcalls -> n <= 17 -> In (n, name) SOCKETCALL.
Proof. exact socketcalls_all. Qed.
Print Assumptions c74_socketcalls_known.
Theorem c74_families : forall n name, In (n, name) SOCKET_FAMILY -> In (n, name) linux_families.
Proof. exact families. Qed.
Print Assumptions c74_families.
Theorem c74_socket_types : forall n name, In (n, name) SOCKET_TYPE -> In (n, name) linux_socket_types.
Proof. exact socket_types. Qed.
Print Assumptions c74_socket_types.
Theorem c74_arguments_partial : forall p syscall argument l n name, p_os p = Linux -> arg_values p syscall argument l -> In (n, name) l ->
  argument <> T "optname" -> ~ In name locks -> name <> T "RLIMIT_NLIMITS" -> In (n, name) (linux_argument syscall argument).
Proof. exact linux_args. Qed.
Print Assumptions c74_arguments_partial.
Theorem c74_options_partial : forall p syscall l n name, p_os p = Linux -> arg_values p syscall (T "optname") l -> In (n, name) l ->
  In (n, name) linux_ip_options \/ In (n, name) linux_socket_options.
Proof. exact options. Qed.
Print Assumptions c74_options_partial.
Example c74_arguments_ex : exists l, arg_values linux_x86_64 (T "futex") (T "op") l /\ In (6, T "FUTEX_LOCK_PI") l /\
  ~ In (T "FUTEX_LOCK_PI") locks.
Proof.
  destruct (values_of_spec linux_x86_64 (T "futex") (T "op") 6 (T "FUTEX_LOCK_PI")) as (l & H1 & H2).
  { apply (mem_In entry_eqb entry_eqb_eq). vm_compute. reflexivity. }
  exists l. split; [exact H1|]. split; [exact H2|]. intros H. apply In_mem_text in H. vm_compute in H. discriminate H.
Qed.
(** the commands of fcntl are those of BSD: file locks are shown as signal ownership and conversely *)
Theorem c74_fcntl_refuted : exists p l, p_os p = Linux /\ arg_values p (T "fcntl") (T "cmd") l /\
  In (5, T "F_GETOWN") l /\ In (6, T "F_SETOWN") l /\ In (7, T "F_GETLK") l /\ In (8, T "F_SETLK") l /\ In (9, T "F_SETLKW") l /\
  In (5, T "F_GETLK") (linux_argument (T "fcntl") (T "cmd")) /\ In (9, T "F_GETOWN") (linux_argument (T "fcntl") (T "cmd")).
Proof. exact fcntl_wrong. Qed.
Print Assumptions c74_fcntl_refuted.
Theorem c74_rlimit_refuted : exists p l, p_os p = Linux /\ arg_values p (T "getrlimit") (T "resource") l /\
  In (15, T "RLIMIT_NLIMITS") l /\ In (15, T "RLIMIT_RTTIME") (linux_argument (T "getrlimit") (T "resource")).
Proof. exact rlimit_wrong. Qed.
Print Assumptions c74_rlimit_refuted.
(** the names of socket options do not depend on the level *)
Theorem c74_options_refuted : exists p l, p_os p = Linux /\ arg_values p (T "setsockopt") (T "optname") l /\
  In (1, T "IP_TOS") l /\ In (1, T "SO_DEBUG") linux_socket_options.
Proof. exact option_level_wrong. Qed.
Print Assumptions c74_options_refuted.
Theorem c74_freebsd_rlimit : forall p syscall l n name, p_os p = FreeBSD -> arg_values p syscall (T "resource") l -> In (n, name) l ->
  In (n, name) (freebsd_argument syscall (T "resource")).
Proof. exact freebsd_args. Qed.
Print Assumptions c74_freebsd_rlimit.
Theorem c74_freebsd_how_refuted : exists p l, p_os p = FreeBSD /\ arg_values p (T "sigprocmask") (T "how") l /\
  In (1, T " SIG_BLOCK") l /\ In (1, T "SIG_BLOCK") (freebsd_argument (T "sigprocmask") (T "how")).
Proof. exact freebsd_how_wrong. Qed.
Print Assumptions c74_freebsd_how_refuted.
(** the address families are those of Linux on FreeBSD too *)
Theorem c74_freebsd_family_refuted : exists p l, p_os p = FreeBSD /\ arg_values p (T "socket") (T "domain") l /\ In (10, T "AF_INET6") l /\ AF_INET6 p = 28.
Proof. exact freebsd_family_wrong. Qed.
Print Assumptions c74_freebsd_family_refuted.

Theorem c74_structs_partial : forall p name places size, p_os p = Linux -> In (name, (places, size)) (kernel_structs (p_64bits p)) ->
  name <> T "user_desc" \/ p_64bits p = false ->
  exists s, In (name, s) (KNOWN_STRUCTS p) /\ struct_places s = places /\ struct_size s = size.
Proof. exact structs. Qed.
Print Assumptions c74_structs_partial.
(** base_addr is 32 bits wide in the kernel *)
Theorem c74_user_desc_refuted : exists p s, p = linux_x86_64 /\ In (T "user_desc", s) (KNOWN_STRUCTS p) /\
  In (T "user_desc", (row 4 0 "entry_number base_addr limit" ++ row 1 12 "_bits_", 16)) (kernel_structs true) /\
  In (T "base_addr", (8, 8)) (struct_places s) /\ In (T "base_addr", (4, 4)) (row 4 0 "entry_number base_addr limit") /\
  struct_size s = 24.
Proof. exact user_desc_wrong. Qed.
Print Assumptions c74_user_desc_refuted.
Theorem c74_sockaddrs : forall p name places, p_os p = Linux -> In (name, places) linux_sockaddrs ->
  exists s, sockaddr_of p name = Some s /\ struct_places s = places.
Proof. exact sockaddrs_linux. Qed.
Print Assumptions c74_sockaddrs.
Theorem c74_sockaddrs_bsd_partial : forall p name places, p_os p <> Linux -> In (name, places) bsd_sockaddrs -> name <> T "sockaddr_un" ->
  exists s, sockaddr_of p name = Some s /\ struct_places s = places.
Proof. exact sockaddrs_bsd. Qed.
Print Assumptions c74_sockaddrs_bsd_partial.
(** sockaddr_un has no sun_len field on BSD: the family is read from the length *)
Theorem c74_sockaddr_un_refuted : exists p, p = freebsd_x86_64 /\ struct_places (sockaddr_un p) = row 1 0 "sun_family" ++ row 108 1 "sun_path" /\
  In (T "sun_family", (1, 1)) (row 1 1 "sun_family" ++ row 104 2 "sun_path").
Proof. exact sockaddr_un_wrong. Qed.
Print Assumptions c74_sockaddr_un_refuted.
Example c74_structs_ex : In (T "pollfd", (row 4 0 "fd" ++ row 2 4 "events revents", 8)) (kernel_structs true) /\
  In (T "sockaddr_nl", row 2 0 "nl_family nl_pad" ++ row 4 4 "nl_pid nl_groups") linux_sockaddrs.
Proof. split; [do 2 right; left; reflexivity|do 4 right; left; reflexivity]. Qed.

(** ** C79: system call numbers *)
Theorem c79_numbers_partial : forall p n name header, kernel_names p = Some header -> has_number p n name -> name <> T "timerfd" -> name <> [] ->
  In (n, name) header.
Proof. exact numbers. Qed.
Print Assumptions c79_numbers_partial.
Theorem c79_known : forall p n name header, kernel_names p = Some header -> In (n, name) header -> n <= table_covers p ->
  exists name', has_number p n name'.
Proof. exact numbers_all. Qed.
Print Assumptions c79_known.
(** only on 32-bit PowerPC names are missing; there seven calls, some with prototypes, have an empty name *)
Theorem c79_nameless : forall p n name, has_number p n name -> name = [] -> p_os p = Linux /\ p_cpu p = PPC32 /\ In n [177; 178; 188; 198; 199; 200; 201].
Proof. exact nameless. Qed.
Print Assumptions c79_nameless.
Theorem c79_powerpc32_refuted : exists p header, p_os p = Linux /\ p_cpu p = PPC32 /\ kernel_names p = Some header /\
  (forall n, In n [177; 178; 188; 198; 199; 200; 201] -> has_number p n []) /\ In (177, T "rt_sigqueueinfo") header /\ In (178, T "rt_sigsuspend") header /\
  exists r f, has_prototype (T "rt_sigsuspend") r f.
Proof. exact powerpc32_wrong. Qed.
Print Assumptions c79_powerpc32_refuted.
(** timerfd_create(2) is called timerfd on x86_64, so it has no prototype *)
Theorem c79_timerfd_refuted : exists p n header, p = linux_x86_64 /\ has_number p n (T "timerfd") /\ kernel_names p = Some header /\
  In (n, T "timerfd_create") header /\ ~ (exists name, name <> T "timerfd_create" /\ In (n, name) header) /\
  (forall r f, ~ has_prototype (T "timerfd") r f) /\ exists r f, has_prototype (T "timerfd_create") r f.
Proof. exact timerfd_wrong. Qed.
Print Assumptions c79_timerfd_refuted.
Example c79_ex : has_number linux_aarch64 222 (T "mmap") /\ kernel_names linux_aarch64 = Some (generic_unistd ++ generic_unistd_64) /\
  has_number linux_i386 16 (T "lchown16").
Proof. split; [apply number_of_spec; vm_compute; reflexivity|]. split; [reflexivity|apply number_of_spec; vm_compute; reflexivity]. Qed.

(** ** C80: arguments of system calls *)
Theorem c80_arguments : forall name r f, has_prototype name r f -> arity name = Some (List.length f).
Proof. exact arities. Qed.
Print Assumptions c80_arguments.
Theorem c80_known : forall name n, arity name = Some n -> exists r f, has_prototype name r f.
Proof. exact arities_all. Qed.
Print Assumptions c80_known.
(** An argument called a file name is one, and is a string ... *)
Theorem c80_paths : forall name r f pos ty nm, has_prototype name r f -> nth_error f pos = Some (ty, nm) -> In nm FILENAME_ARGUMENTS ->
  is_path name pos /\ (ty = T "const char *" \/ ty = T "char *").
Proof. exact paths. Qed.
Print Assumptions c80_paths.
(** ... and file names are known as such, except those of calls on file systems. *)
Theorem c80_paths_known_partial : forall name r f pos, has_prototype name r f -> is_path name pos -> ~ In name file_system_calls ->
  exists ty nm, nth_error f pos = Some (ty, nm) /\ In nm FILENAME_ARGUMENTS.
Proof. exact paths_all. Qed.
Print Assumptions c80_paths_known_partial.
Theorem c80_mount_refuted : exists name r f, has_prototype name r f /\ is_path name 0 /\ is_path name 1 /\
  forall ty nm, In (ty, nm) f -> ~ In nm FILENAME_ARGUMENTS.
Proof. exact mount_no_path. Qed.
Print Assumptions c80_mount_refuted.
Example c80_ex : arity (T "renameat") = Some 4%nat /\ is_path (T "renameat") 3 /\
  exists r f, has_prototype (T "renameat") r f /\ nth_error f 3 = Some (T "const char *", T "newname").
Proof.
  split; [vm_compute; reflexivity|]. split; [apply is_pathb_spec; vm_compute; reflexivity|].
  do 2 eexists. split; [apply has_prototype_dget; vm_compute; reflexivity|reflexivity].
Qed.
(** The rules of ctypes (C73): an unknown field is an AttributeError, bytes are not padded *)
Theorem c73_unknown_field : forall big fs s name value, ~ In name (map fst fs) -> get_field big fs s name = Err EAttributeError /\ set_field big fs s name value = Err EAttributeError.
Proof. exact unknown_field. Qed.
Print Assumptions c73_unknown_field.
Theorem c73_bytes : forall fs, Forall (fun f => snd f = 1) fs -> sizeof fs = zlen fs.
Proof. exact bytes_size. Qed.
Print Assumptions c73_bytes.
Example c73_bytes_ex : sizeof [(T "a", 1); (T "b", 1); (T "c", 1)] = 3 /\ get_field false [(T "a", 1)] [z2b 7] (T "b") = Err EAttributeError.
Proof. split; reflexivity. Qed.
