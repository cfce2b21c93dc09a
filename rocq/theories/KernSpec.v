(** * KernSpec: what the headers of the operating systems say.

    Registers, structures, constants, system call numbers and argument counts, transcribed from the headers of Linux
    (sys/user.h, asm/ptrace.h, asm-generic/siginfo.h, linux/*.h, asm/unistd_*.h), FreeBSD and OpenBSD (machine/reg.h), not from /repo. *)
From Coq Require Import ZArith List Ascii String Bool.
From Verif Require Import PyBase Platform.
Import ListNotations.
Open Scope Z_scope.

(** [from n "a b c"]: n is a, n+1 is b, n+2 is c *)
Fixpoint number_from (n : Z) (names : list text) : list (Z * text) :=
  match names with [] => [] | name :: names => (n, name) :: number_from (n + 1) names end.
Definition from (n : Z) (names : string) : list (Z * text) := number_from n (split_ws (T names)).

(** ** Registers: name, offset and size in bytes *)
Definition place : Type := text * (Z * Z).
(** consecutive registers of [size] bytes, one every [step] bytes *)
Fixpoint every (size step off : Z) (names : list text) : list place :=
  match names with [] => [] | name :: names => (name, (off, size)) :: every size step (off + step) names end.
Definition row (size off : Z) (names : string) : list place := every size size off (split_ws (T names)).
Definition row_in (size step off : Z) (names : string) : list place := every size step off (split_ws (T names)).

(** sys/user.h, 64 bits: struct user_regs_struct *)
Definition x86_64_registers : list place :=
  row 8 0 "r15 r14 r13 r12 rbp rbx r11 r10 r9 r8 rax rcx rdx rsi rdi orig_rax rip cs eflags rsp ss fs_base gs_base ds es fs gs".
(** sys/user.h, 32 bits; a selector is the low half of its word *)
Definition i386_registers : list place :=
  row 4 0 "ebx ecx edx esi edi ebp eax" ++ row_in 2 4 28 "ds es fs gs" ++ row 4 44 "orig_eax eip" ++ row_in 2 4 52 "cs" ++
  row 4 56 "eflags esp" ++ row_in 2 4 64 "ss".
(** asm/ptrace.h of PowerPC: struct pt_regs *)
Definition powerpc_registers (size : Z) (word39 : string) : list place :=
  row size 0 "gpr0 gpr1 gpr2 gpr3 gpr4 gpr5 gpr6 gpr7 gpr8 gpr9 gpr10 gpr11 gpr12 gpr13 gpr14 gpr15
              gpr16 gpr17 gpr18 gpr19 gpr20 gpr21 gpr22 gpr23 gpr24 gpr25 gpr26 gpr27 gpr28 gpr29 gpr30 gpr31" ++
  row size (32 * size) "nip msr orig_gpr3 ctr link xer ccr" ++ row size (39 * size) word39 ++ row size (40 * size) "trap dar dsisr result".
(** asm/ptrace.h of ARM: uregs[18]; of AArch64: struct user_pt_regs; of RISC-V: struct user_regs_struct *)
Definition arm_registers : list place := row 4 0 "r0 r1 r2 r3 r4 r5 r6 r7 r8 r9 r10 r11 r12 r13 r14 r15 r16 r17".
Definition aarch64_registers : list place :=
  row 8 0 "r0 r1 r2 r3 r4 r5 r6 r7 r8 r9 r10 r11 r12 r13 r14 r15 r16 r17 r18 r19 r20 r21 r22 r23 r24 r25 r26 r27 r28 r29 r30" ++
  row 8 248 "sp pc pstate".
Definition riscv_registers (size : Z) : list place :=
  row size 0 "pc ra sp gp tp t0 t1 t2 s0 s1 a0 a1 a2 a3 a4 a5 a6 a7 s2 s3 s4 s5 s6 s7 s8 s9 s10 s11 t3 t4 t5 t6".
(** FreeBSD machine/reg.h: struct reg *)
Definition freebsd_amd64_registers : list place :=
  row 8 0 "r15 r14 r13 r12 r11 r10 r9 r8 rdi rsi rbp rbx rdx rcx rax" ++ row 4 120 "trapno" ++ row 2 124 "fs gs" ++
  row 4 128 "err" ++ row 2 132 "es ds" ++ row 8 136 "rip cs rflags rsp ss".
Definition freebsd_i386_registers : list place :=
  row 4 0 "fs es ds edi esi ebp isp ebx edx ecx eax trapno err eip cs eflags esp ss gs".
(** OpenBSD machine/reg.h: struct reg *)
Definition openbsd_i386_registers : list place := row 4 0 "eax ecx edx ebx esp ebp esi edi eip eflags cs ss ds es fs gs".
Definition openbsd_amd64_registers : list place :=
  row 8 0 "rdi rsi rdx rcx r8 r9 r10 r11 r12 r13 r14 r15 rbp rbx rax rsp rip rflags cs ss ds es fs gs".

(** the registers of a process of the same kind as the debugger, and the size of the structure *)
Definition kernel_registers (p : platform) : option (list place * Z) :=
  match p_os p, p_cpu p, p_64bits p with
  | Linux, X86_64, true => Some (x86_64_registers, 216)
  | Linux, (X86_64 | I386), false => Some (i386_registers, 68)
  | Linux, PPC32, false => Some (powerpc_registers 4 "mq", 176)
  | Linux, PPC64, true => Some (powerpc_registers 8 "softe", 352)
  | Linux, ARM32, false => Some (arm_registers, 72)
  | Linux, AARCH64, true => Some (aarch64_registers, 272)
  | Linux, RISCV32, false => Some (riscv_registers 4, 128)
  | Linux, RISCV64, true => Some (riscv_registers 8, 256)
  | FreeBSD, X86_64, true => Some (freebsd_amd64_registers, 176)
  | FreeBSD, I386, false => Some (freebsd_i386_registers, 76)
  | OpenBSD, I386, false => Some (openbsd_i386_registers, 64)
  | OpenBSD, X86_64, true => Some (openbsd_amd64_registers, 192)
  | _, _, _ => None
  end.

(** ** Other structures of the debugging interface *)
(** sys/user.h: struct user_fpregs_struct and struct user_fpxregs_struct *)
Definition kernel_fpregs (bits64 : bool) : list place * Z :=
  if bits64
  then (row 2 0 "cwd swd ftw fop" ++ row 8 8 "rip rdp" ++ row 4 24 "mxcsr mxcr_mask" ++
        [(T "st_space", (32, 128)); (T "xmm_space", (160, 256)); (T "padding", (416, 96))], 512)
  else (row 4 0 "cwd swd twd fip fcs foo fos" ++ [(T "st_space", (28, 80))], 108).
Definition kernel_fpxregs : list place * Z :=
  (row 2 0 "cwd swd twd fop" ++ row 4 8 "fip fcs foo fos mxcsr reserved" ++
   [(T "st_space", (32, 128)); (T "xmm_space", (160, 128)); (T "padding", (288, 224))], 512).
(** asm-generic/siginfo.h: where the fields are *)
Definition kernel_siginfo (bits64 : bool) : list place :=
  row 4 0 "si_signo si_errno si_code" ++
  if bits64 then row 4 16 "pid uid status" ++ row 8 32 "utime stime" ++ row 8 16 "_addr"
  else row 4 12 "pid uid status utime stime" ++ row 4 12 "_addr".
Definition SI_MAX_SIZE : Z := 128.
(** sys/uio.h *)
Definition kernel_iovec (bits64 : bool) : list place * Z := if bits64 then (row 8 0 "buf len", 16) else (row 4 0 "buf len", 8).
(** sys/ptrace.h of FreeBSD and OpenBSD *)
Definition kernel_io_desc (bits64 : bool) : list place * Z :=
  if bits64 then (row 4 0 "piod_op" ++ row 8 8 "piod_offs piod_addr piod_len", 32)
  else (row 4 0 "piod_op piod_offs piod_addr piod_len", 16).

(** ** Structures of system call arguments: name, offset, size, and the size of the structure *)
Definition kernel_structs (bits64 : bool) : list (text * (list place * Z)) :=
  let w := if bits64 then 8 else 4 in
  [(T "timeval", (row w 0 "tv_sec tv_usec", 2 * w));
   (T "timespec", (row w 0 "tv_sec tv_nsec", 2 * w));
   (T "pollfd", (row 4 0 "fd" ++ row 2 4 "events revents", 8));
   (T "rlimit", (row w 0 "rlim_cur rlim_max", 2 * w));
   (T "new_utsname", (row 65 0 "sysname nodename release version machine domainname", 390));
   (T "user_desc", (row 4 0 "entry_number base_addr limit" ++ row 1 12 "_bits_", 16))].
Definition linux_sockaddrs : list (text * list place) :=
  [(T "sockaddr", row 2 0 "family");
   (T "sockaddr_in", row 2 0 "sin_family sin_port" ++ row 4 4 "sin_addr");
   (T "sockaddr_in6", row 2 0 "sin6_family sin6_port" ++ row 4 4 "sin6_flowinfo" ++ row 16 8 "sin6_addr" ++ row 4 24 "sin6_scope_ip");
   (T "sockaddr_un", row 2 0 "sun_family" ++ row 108 2 "sun_path");
   (T "sockaddr_nl", row 2 0 "nl_family nl_pad" ++ row 4 4 "nl_pid nl_groups")].
Definition bsd_sockaddrs : list (text * list place) :=
  [(T "sockaddr", row 1 0 "len family");
   (T "sockaddr_in", row 1 0 "sin_len sin_family" ++ row 2 2 "sin_port" ++ row 4 4 "sin_addr");
   (T "sockaddr_in6", row 1 0 "sin6_len sin6_family" ++ row 2 2 "sin6_port" ++ row 4 4 "sin6_flowinfo" ++ row 16 8 "sin6_addr");
   (T "sockaddr_un", row 1 1 "sun_family" ++ row 104 2 "sun_path")].

(** ** Constants *)
(** [octal "0100" "O_CREAT"] *)
Definition octal (digits name : string) : Z * text := (fold_left (fun n c => 8 * n + (b2z c - 48)) (T digits) 0, T name).
Definition bit (n : Z) (name : string) : Z * text := (2 ^ n, T name).
(** bits/fcntl-linux.h *)
Definition linux_open_flags : list (Z * text) :=
  [octal "01" "O_WRONLY"; octal "02" "O_RDWR"; octal "0100" "O_CREAT"; octal "0200" "O_EXCL"; octal "0400" "O_NOCTTY";
   octal "01000" "O_TRUNC"; octal "02000" "O_APPEND"; octal "04000" "O_NONBLOCK"; octal "010000" "O_DSYNC"; octal "04010000" "O_SYNC";
   octal "020000" "O_ASYNC"; octal "040000" "O_DIRECT"; octal "0100000" "O_LARGEFILE"; octal "0200000" "O_DIRECTORY";
   octal "0400000" "O_NOFOLLOW"; octal "01000000" "O_NOATIME"; octal "02000000" "O_CLOEXEC"; octal "010000000" "O_PATH";
   octal "020200000" "O_TMPFILE"].
(** linux/stat.h *)
Definition linux_file_modes : list (Z * text) :=
  [octal "0400" "S_IRUSR"; octal "0200" "S_IWUSR"; octal "0100" "S_IXUSR"; octal "040" "S_IRGRP"; octal "020" "S_IWGRP"; octal "010" "S_IXGRP";
   octal "04" "S_IROTH"; octal "02" "S_IWOTH"; octal "01" "S_IXOTH"].
(** unistd.h *)
Definition posix_access_modes : list (Z * text) := [octal "4" "R_OK"; octal "2" "W_OK"; octal "1" "X_OK"].
(** asm-generic/mman-common.h *)
Definition linux_protections : list (Z * text) :=
  [bit 0 "PROT_READ"; bit 1 "PROT_WRITE"; bit 2 "PROT_EXEC"; bit 3 "PROT_SEM"; bit 24 "PROT_GROWSDOWN"; bit 25 "PROT_GROWSUP"].
(** linux/sched.h *)
Definition linux_clone_flags : list (Z * text) :=
  [bit 8 "CLONE_VM"; bit 9 "CLONE_FS"; bit 10 "CLONE_FILES"; bit 11 "CLONE_SIGHAND"; bit 12 "CLONE_PIDFD"; bit 13 "CLONE_PTRACE";
   bit 14 "CLONE_VFORK"; bit 15 "CLONE_PARENT"; bit 16 "CLONE_THREAD"; bit 17 "CLONE_NEWNS"; bit 18 "CLONE_SYSVSEM"; bit 19 "CLONE_SETTLS";
   bit 20 "CLONE_PARENT_SETTID"; bit 21 "CLONE_CHILD_CLEARTID"; bit 22 "CLONE_DETACHED"; bit 23 "CLONE_UNTRACED";
   bit 24 "CLONE_CHILD_SETTID"; bit 25 "CLONE_NEWCGROUP"; bit 26 "CLONE_NEWUTS"; bit 27 "CLONE_NEWIPC"; bit 28 "CLONE_NEWUSER";
   bit 29 "CLONE_NEWPID"; bit 30 "CLONE_NEWNET"; bit 31 "CLONE_IO"].
(** linux/net.h, bits/socket.h, bits/socket_type.h *)
Definition linux_socketcalls : list (Z * text) :=
  from 1 "socket bind connect listen accept getsockname getpeername socketpair send recv sendto recvfrom shutdown setsockopt getsockopt
          sendmsg recvmsg accept4 recvmmsg sendmmsg".
Definition linux_families : list (Z * text) :=
  from 0 "AF_UNSPEC AF_FILE AF_INET AF_AX25 AF_IPX AF_APPLETALK AF_NETROM AF_BRIDGE AF_ATMPVC AF_X25 AF_INET6 AF_ROSE AF_DECnet
          AF_NETBEUI AF_SECURITY AF_KEY AF_NETLINK AF_PACKET AF_ASH AF_ECONET AF_ATMSVC AF_RDS AF_SNA AF_IRDA AF_PPPOX AF_WANPIPE
          AF_LLC AF_IB AF_MPLS AF_CAN AF_TIPC AF_BLUETOOTH AF_IUCV".
Definition linux_socket_types : list (Z * text) :=
  from 1 "SOCK_STREAM SOCK_DGRAM SOCK_RAW SOCK_RDM SOCK_SEQPACKET SOCK_DCCP" ++ from 10 "SOCK_PACKET".
(** what the numbers mean as an argument of a Linux system call: lseek(2), futex(2), fcntl(2), ipc(2), socket(2), setsockopt(2),
    getrlimit(2), sigprocmask(2) *)
Definition same (s a : text) (x y : string) : bool := text_eqb s (T x) && text_eqb a (T y).
Definition linux_argument (syscall argument : text) : list (Z * text) :=
  if same syscall argument "lseek" "origin" then from 0 "SEEK_SET SEEK_CUR SEEK_END"
  else if same syscall argument "futex" "op" then
    from 0 "FUTEX_WAIT FUTEX_WAKE FUTEX_FD FUTEX_REQUEUE FUTEX_CMP_REQUEUE FUTEX_WAKE_OP FUTEX_LOCK_PI FUTEX_UNLOCK_PI FUTEX_TRYLOCK_PI
            FUTEX_WAIT_BITSET FUTEX_WAKE_BITSET"
  else if same syscall argument "fcntl" "cmd" then from 0 "F_DUPFD F_GETFD F_SETFD F_GETFL F_SETFL F_GETLK F_SETLK F_SETLKW F_SETOWN F_GETOWN F_SETSIG F_GETSIG"
  else if same syscall argument "ipc" "call" then from 1 "SEMOP SEMGET SEMCTL SEMTIMEDOP" ++ from 11 "MSGSND MSGRCV MSGGET MSGCTL" ++ from 21 "SHMAT SHMDT SHMGET SHMCTL"
  else if same syscall argument "socket" "domain" then linux_families
  else if same syscall argument "socket" "protocol" then from 1 "IPPROTO_ICMP IPPROTO_IGMP" ++ from 6 "IPPROTO_TCP" ++ from 17 "IPPROTO_UDP" ++ from 58 "IPPROTO_ICMPV6"
  else if same syscall argument "setsockopt" "level" || same syscall argument "getsockopt" "level" then from 0 "SOL_IP SOL_SOCKET" ++ from 6 "SOL_TCP" ++ from 17 "SOL_UDP"
  else if same syscall argument "setrlimit" "resource" || same syscall argument "getrlimit" "resource" then
    from 0 "RLIMIT_CPU RLIMIT_FSIZE RLIMIT_DATA RLIMIT_STACK RLIMIT_CORE RLIMIT_RSS RLIMIT_NPROC RLIMIT_NOFILE RLIMIT_MEMLOCK RLIMIT_AS
            RLIMIT_LOCKS RLIMIT_SIGPENDING RLIMIT_MSGQUEUE RLIMIT_NICE RLIMIT_RTPRIO RLIMIT_RTTIME"
  else if same syscall argument "sigprocmask" "how" || same syscall argument "rt_sigprocmask" "how" then from 0 "SIG_BLOCK SIG_UNBLOCK SIG_SETMASK"
  else [].
(** options of setsockopt(2): level SOL_IP, then level SOL_SOCKET *)
Definition linux_ip_options : list (Z * text) := from 1 "IP_TOS IP_TTL".
Definition linux_socket_options : list (Z * text) :=
  from 1 "SO_DEBUG SO_REUSEADDR SO_TYPE SO_ERROR SO_DONTROUTE SO_BROADCAST SO_SNDBUF SO_RCVBUF SO_KEEPALIVE SO_OOBINLINE SO_NO_CHECK
          SO_PRIORITY SO_LINGER SO_BSDCOMPAT SO_REUSEPORT SO_PASSCRED SO_PEERCRED SO_RCVLOWAT SO_SNDLOWAT SO_RCVTIMEO SO_SNDTIMEO".
(** FreeBSD: sys/resource.h, sys/signal.h *)
Definition freebsd_argument (syscall argument : text) : list (Z * text) :=
  if same syscall argument "setrlimit" "resource" || same syscall argument "getrlimit" "resource" then
    from 0 "RLIMIT_CPU RLIMIT_FSIZE RLIMIT_DATA RLIMIT_STACK RLIMIT_CORE RLIMIT_RSS RLIMIT_MEMLOCK RLIMIT_NPROC RLIMIT_NOFILE RLIMIT_SBSIZE
            RLIMIT_VMEM RLIMIT_NPTS"
  else if same syscall argument "sigprocmask" "how" then from 1 "SIG_BLOCK SIG_UNBLOCK SIG_SETMASK"
  else if same syscall argument "fcntl" "cmd" then from 0 "F_DUPFD F_GETFD F_SETFD F_GETFL F_SETFL F_GETOWN F_SETOWN"
  else [].

(** ** System call numbers *)
(** asm/unistd_64.h *)
Definition x86_64_unistd : list (Z * text) :=
   from 0 "read write open close stat fstat lstat poll lseek mmap mprotect munmap brk rt_sigaction rt_sigprocmask
      rt_sigreturn ioctl pread64 pwrite64 readv writev access pipe select sched_yield mremap msync mincore
      madvise shmget shmat shmctl dup dup2 pause nanosleep getitimer alarm setitimer getpid sendfile socket
      connect accept sendto recvfrom sendmsg recvmsg shutdown bind listen getsockname getpeername socketpair
      setsockopt getsockopt clone fork vfork execve exit wait4 kill uname semget semop semctl shmdt msgget
      msgsnd msgrcv msgctl fcntl flock fsync fdatasync truncate ftruncate getdents getcwd chdir fchdir rename
      mkdir rmdir creat link unlink symlink readlink chmod fchmod chown fchown lchown umask gettimeofday
      getrlimit getrusage sysinfo times ptrace getuid syslog getgid setuid setgid geteuid getegid setpgid
      getppid getpgrp setsid setreuid setregid getgroups setgroups setresuid getresuid setresgid getresgid
      getpgid setfsuid setfsgid getsid capget capset rt_sigpending rt_sigtimedwait rt_sigqueueinfo
      rt_sigsuspend sigaltstack utime mknod uselib personality ustat statfs fstatfs sysfs getpriority
      setpriority sched_setparam sched_getparam sched_setscheduler sched_getscheduler sched_get_priority_max
      sched_get_priority_min sched_rr_get_interval mlock munlock mlockall munlockall vhangup modify_ldt
      pivot_root _sysctl prctl arch_prctl adjtimex setrlimit chroot sync acct settimeofday mount umount2 swapon
      swapoff reboot sethostname setdomainname iopl ioperm create_module init_module delete_module
      get_kernel_syms query_module quotactl nfsservctl getpmsg putpmsg afs_syscall tuxcall security gettid
      readahead setxattr lsetxattr fsetxattr getxattr lgetxattr fgetxattr listxattr llistxattr flistxattr
      removexattr lremovexattr fremovexattr tkill time futex sched_setaffinity sched_getaffinity
      set_thread_area io_setup io_destroy io_getevents io_submit io_cancel get_thread_area lookup_dcookie
      epoll_create epoll_ctl_old epoll_wait_old remap_file_pages getdents64 set_tid_address restart_syscall
      semtimedop fadvise64 timer_create timer_settime timer_gettime timer_getoverrun timer_delete clock_settime
      clock_gettime clock_getres clock_nanosleep exit_group epoll_wait epoll_ctl tgkill utimes vserver mbind
      set_mempolicy get_mempolicy mq_open mq_unlink mq_timedsend mq_timedreceive mq_notify mq_getsetattr
      kexec_load waitid add_key request_key keyctl ioprio_set ioprio_get inotify_init inotify_add_watch
      inotify_rm_watch migrate_pages openat mkdirat mknodat fchownat futimesat newfstatat unlinkat renameat
      linkat symlinkat readlinkat fchmodat faccessat pselect6 ppoll unshare set_robust_list get_robust_list
      splice tee sync_file_range vmsplice move_pages utimensat epoll_pwait signalfd timerfd_create eventfd
      fallocate timerfd_settime timerfd_gettime accept4 signalfd4 eventfd2 epoll_create1 dup3 pipe2
      inotify_init1 preadv pwritev rt_tgsigqueueinfo perf_event_open recvmmsg fanotify_init fanotify_mark
      prlimit64 name_to_handle_at open_by_handle_at clock_adjtime syncfs sendmmsg setns getcpu process_vm_readv
      process_vm_writev kcmp finit_module sched_setattr sched_getattr renameat2 seccomp getrandom memfd_create
      kexec_file_load bpf execveat userfaultfd membarrier mlock2 copy_file_range preadv2 pwritev2 pkey_mprotect
      pkey_alloc pkey_free statx io_pgetevents rseq" ++
   from 424 "pidfd_send_signal io_uring_setup io_uring_enter io_uring_register open_tree move_mount fsopen fsconfig
      fsmount fspick pidfd_open clone3 close_range openat2 pidfd_getfd faccessat2 process_madvise epoll_pwait2
      mount_setattr quotactl_fd landlock_create_ruleset landlock_add_rule landlock_restrict_self memfd_secret
      process_mrelease futex_waitv set_mempolicy_home_node".
(** asm/unistd_32.h *)
Definition i386_unistd : list (Z * text) :=
   from 0 "restart_syscall exit fork read write open close waitpid creat link unlink execve chdir time mknod chmod
      lchown break oldstat lseek getpid mount umount setuid getuid stime ptrace alarm oldfstat pause utime stty
      gtty access nice ftime sync kill rename mkdir rmdir dup pipe times prof brk setgid getgid signal geteuid
      getegid acct umount2 lock ioctl fcntl mpx setpgid ulimit oldolduname umask chroot ustat dup2 getppid
      getpgrp setsid sigaction sgetmask ssetmask setreuid setregid sigsuspend sigpending sethostname setrlimit
      getrlimit getrusage gettimeofday settimeofday getgroups setgroups select symlink oldlstat readlink uselib
      swapon reboot readdir mmap munmap truncate ftruncate fchmod fchown getpriority setpriority profil statfs
      fstatfs ioperm socketcall syslog setitimer getitimer stat lstat fstat olduname iopl vhangup idle vm86old
      wait4 swapoff sysinfo ipc fsync sigreturn clone setdomainname uname modify_ldt adjtimex mprotect
      sigprocmask create_module init_module delete_module get_kernel_syms quotactl getpgid fchdir bdflush sysfs
      personality afs_syscall setfsuid setfsgid _llseek getdents _newselect flock msync readv writev getsid
      fdatasync _sysctl mlock munlock mlockall munlockall sched_setparam sched_getparam sched_setscheduler
      sched_getscheduler sched_yield sched_get_priority_max sched_get_priority_min sched_rr_get_interval
      nanosleep mremap setresuid getresuid vm86 query_module poll nfsservctl setresgid getresgid prctl
      rt_sigreturn rt_sigaction rt_sigprocmask rt_sigpending rt_sigtimedwait rt_sigqueueinfo rt_sigsuspend
      pread64 pwrite64 chown getcwd capget capset sigaltstack sendfile getpmsg putpmsg vfork ugetrlimit mmap2
      truncate64 ftruncate64 stat64 lstat64 fstat64 lchown32 getuid32 getgid32 geteuid32 getegid32 setreuid32
      setregid32 getgroups32 setgroups32 fchown32 setresuid32 getresuid32 setresgid32 getresgid32 chown32
      setuid32 setgid32 setfsuid32 setfsgid32 pivot_root mincore madvise getdents64 fcntl64" ++
   from 224 "gettid readahead setxattr lsetxattr fsetxattr getxattr lgetxattr fgetxattr listxattr llistxattr
      flistxattr removexattr lremovexattr fremovexattr tkill sendfile64 futex sched_setaffinity
      sched_getaffinity set_thread_area get_thread_area io_setup io_destroy io_getevents io_submit io_cancel
      fadvise64" ++
   from 252 "exit_group lookup_dcookie epoll_create epoll_ctl epoll_wait remap_file_pages set_tid_address timer_create
      timer_settime timer_gettime timer_getoverrun timer_delete clock_settime clock_gettime clock_getres
      clock_nanosleep statfs64 fstatfs64 tgkill utimes fadvise64_64 vserver mbind get_mempolicy set_mempolicy
      mq_open mq_unlink mq_timedsend mq_timedreceive mq_notify mq_getsetattr kexec_load waitid" ++
   from 286 "add_key request_key keyctl ioprio_set ioprio_get inotify_init inotify_add_watch inotify_rm_watch
      migrate_pages openat mkdirat mknodat fchownat futimesat fstatat64 unlinkat renameat linkat symlinkat
      readlinkat fchmodat faccessat pselect6 ppoll unshare set_robust_list get_robust_list splice
      sync_file_range tee vmsplice move_pages getcpu epoll_pwait utimensat signalfd timerfd_create eventfd
      fallocate timerfd_settime timerfd_gettime signalfd4 eventfd2 epoll_create1 dup3 pipe2 inotify_init1
      preadv pwritev rt_tgsigqueueinfo perf_event_open recvmmsg fanotify_init fanotify_mark prlimit64
      name_to_handle_at open_by_handle_at clock_adjtime syncfs sendmmsg setns process_vm_readv
      process_vm_writev kcmp finit_module sched_setattr sched_getattr renameat2 seccomp getrandom memfd_create
      bpf execveat socket socketpair bind connect listen accept4 getsockopt setsockopt getsockname getpeername
      sendto sendmsg recvfrom recvmsg shutdown userfaultfd membarrier mlock2 copy_file_range preadv2 pwritev2
      pkey_mprotect pkey_alloc pkey_free statx arch_prctl io_pgetevents rseq" ++
   from 393 "semget semctl shmget shmctl shmat shmdt msgget msgsnd msgrcv msgctl clock_gettime64 clock_settime64
      clock_adjtime64 clock_getres_time64 clock_nanosleep_time64 timer_gettime64 timer_settime64
      timerfd_gettime64 timerfd_settime64 utimensat_time64 pselect6_time64 ppoll_time64" ++
   from 416 "io_pgetevents_time64 recvmmsg_time64 mq_timedsend_time64 mq_timedreceive_time64 semtimedop_time64
      rt_sigtimedwait_time64 futex_time64 sched_rr_get_interval_time64 pidfd_send_signal io_uring_setup
      io_uring_enter io_uring_register open_tree move_mount fsopen fsconfig fsmount fspick pidfd_open clone3
      close_range openat2 pidfd_getfd faccessat2 process_madvise epoll_pwait2 mount_setattr quotactl_fd
      landlock_create_ruleset landlock_add_rule landlock_restrict_self memfd_secret process_mrelease
      futex_waitv set_mempolicy_home_node".
(** asm-generic/unistd.h, without the calls whose name depends on the word size *)
Definition generic_unistd : list (Z * text) :=
   from 0 "io_setup io_destroy io_submit io_cancel io_getevents setxattr lsetxattr fsetxattr getxattr lgetxattr
      fgetxattr listxattr llistxattr flistxattr removexattr lremovexattr fremovexattr getcwd lookup_dcookie
      eventfd2 epoll_create1 epoll_ctl epoll_pwait dup dup3" ++
   from 26 "inotify_init1 inotify_add_watch inotify_rm_watch ioctl ioprio_set ioprio_get flock mknodat mkdirat
      unlinkat symlinkat linkat renameat umount2 mount pivot_root nfsservctl" ++
   from 47 "fallocate faccessat chdir fchdir chroot fchmod fchmodat fchownat fchown openat close vhangup pipe2
      quotactl getdents64" ++
   from 63 "read write readv writev pread64 pwrite64 preadv pwritev" ++
   from 72 "pselect6 ppoll signalfd4 vmsplice splice tee readlinkat" ++
   from 81 "sync fsync fdatasync sync_file_range timerfd_create timerfd_settime timerfd_gettime utimensat acct capget
      capset personality exit exit_group waitid set_tid_address unshare futex set_robust_list get_robust_list
      nanosleep getitimer setitimer kexec_load init_module delete_module timer_create timer_gettime
      timer_getoverrun timer_settime timer_delete clock_settime clock_gettime clock_getres clock_nanosleep
      syslog ptrace sched_setparam sched_setscheduler sched_getscheduler sched_getparam sched_setaffinity
      sched_getaffinity sched_yield sched_get_priority_max sched_get_priority_min sched_rr_get_interval
      restart_syscall kill tkill tgkill sigaltstack rt_sigsuspend rt_sigaction rt_sigprocmask rt_sigpending
      rt_sigtimedwait rt_sigqueueinfo rt_sigreturn setpriority getpriority reboot setregid setgid setreuid
      setuid setresuid getresuid setresgid getresgid setfsuid setfsgid times setpgid getpgid getsid setsid
      getgroups setgroups uname sethostname setdomainname getrlimit setrlimit getrusage umask prctl getcpu
      gettimeofday settimeofday adjtimex getpid getppid getuid geteuid getgid getegid gettid sysinfo mq_open
      mq_unlink mq_timedsend mq_timedreceive mq_notify mq_getsetattr msgget msgctl msgrcv msgsnd semget semctl
      semtimedop semop shmget shmctl shmat shmdt socket socketpair bind listen accept connect getsockname
      getpeername sendto recvfrom setsockopt getsockopt shutdown sendmsg recvmsg readahead brk munmap mremap
      add_key request_key keyctl clone execve" ++
   from 224 "swapon swapoff mprotect msync mlock munlock mlockall munlockall mincore madvise remap_file_pages mbind
      get_mempolicy set_mempolicy migrate_pages move_pages rt_tgsigqueueinfo perf_event_open accept4 recvmmsg" ++
   from 260 "wait4 prlimit64 fanotify_init fanotify_mark name_to_handle_at open_by_handle_at clock_adjtime syncfs
      setns sendmmsg process_vm_readv process_vm_writev kcmp finit_module sched_setattr sched_getattr renameat2
      seccomp getrandom memfd_create bpf execveat userfaultfd membarrier mlock2 copy_file_range preadv2
      pwritev2 pkey_mprotect pkey_alloc pkey_free statx io_pgetevents rseq kexec_file_load" ++
   from 424 "pidfd_send_signal io_uring_setup io_uring_enter io_uring_register open_tree move_mount fsopen fsconfig
      fsmount fspick pidfd_open clone3 close_range openat2 pidfd_getfd faccessat2 process_madvise epoll_pwait2
      mount_setattr quotactl_fd landlock_create_ruleset landlock_add_rule landlock_restrict_self memfd_secret
      process_mrelease futex_waitv set_mempolicy_home_node".
(** asm-generic/unistd.h: the calls of 64-bit CPUs only *)
Definition generic_unistd_64 : list (Z * text) :=
   from 25 "fcntl" ++
   from 43 "statfs fstatfs truncate ftruncate" ++
   from 62 "lseek" ++
   from 71 "sendfile" ++
   from 79 "newfstatat fstat" ++
   from 222 "mmap fadvise64".
(** asm-generic/unistd.h: the calls of 32-bit CPUs only *)
Definition generic_unistd_32 : list (Z * text) :=
   from 25 "fcntl64" ++
   from 43 "statfs64 fstatfs64 truncate64 ftruncate64" ++
   from 62 "llseek" ++
   from 71 "sendfile64" ++
   from 79 "fstatat64 fstat64" ++
   from 222 "mmap2 fadvise64_64" ++
   from 403 "clock_gettime64 clock_settime64 clock_adjtime64 clock_getres_time64 clock_nanosleep_time64
      timer_gettime64 timer_settime64 timerfd_gettime64 timerfd_settime64 utimensat_time64 pselect6_time64
      ppoll_time64" ++
   from 416 "io_pgetevents_time64 recvmmsg_time64 mq_timedsend_time64 mq_timedreceive_time64 semtimedop_time64
      rt_sigtimedwait_time64 futex_time64 sched_rr_get_interval_time64".
(** asm/unistd.h of RISC-V *)
Definition riscv_unistd : list (Z * text) := from 259 "riscv_flush_icache".
(** x32 calls of the x86_64 kernel (asm/unistd_x32.h): same names, other numbers *)
Definition x32_unistd : list (Z * text) :=
  from 512 "rt_sigaction rt_sigreturn ioctl readv writev recvfrom sendmsg recvmsg execve ptrace rt_sigpending rt_sigtimedwait
            rt_sigqueueinfo sigaltstack timer_create mq_notify kexec_load waitid set_robust_list get_robust_list vmsplice move_pages
            preadv pwritev rt_tgsigqueueinfo recvmmsg sendmmsg process_vm_readv process_vm_writev setsockopt getsockopt io_setup
            io_submit execveat preadv2 pwritev2".
(** arch/x86/entry/syscalls/syscall_32.tbl: the functions of the kernel (sys_...) that implement calls of another name *)
Definition i386_entry_points : list (Z * text) :=
  from 16 "lchown16" ++ from 18 "stat" ++ from 22 "oldumount setuid16 getuid16" ++ from 28 "fstat" ++ from 46 "setgid16 getgid16" ++
  from 49 "geteuid16 getegid16" ++ from 52 "umount" ++ from 59 "olduname" ++ from 70 "setreuid16 setregid16" ++ from 76 "old_getrlimit" ++
  from 80 "getgroups16 setgroups16 old_select" ++ from 84 "lstat" ++ from 89 "old_readdir old_mmap" ++ from 95 "fchown16" ++
  from 106 "newstat newlstat newfstat uname" ++ from 122 "newuname" ++ from 138 "setfsuid16 setfsgid16 llseek" ++ from 142 "select" ++
  from 149 "sysctl" ++ from 164 "setresuid16 getresuid16" ++ from 170 "setresgid16 getresgid16" ++ from 182 "chown16" ++
  from 191 "getrlimit mmap_pgoff" ++
  from 198 "lchown getuid getgid geteuid getegid setreuid setregid getgroups setgroups fchown setresuid getresuid setresgid getresgid
            chown setuid setgid setfsuid setfsgid".
(** asm/unistd.h of PowerPC; what only 32 bits and only 64 bits have *)
Definition powerpc_unistd : list (Z * text) :=
  from 0 "restart_syscall exit fork read write open close waitpid creat link unlink execve chdir time mknod chmod lchown break oldstat lseek
            getpid mount umount setuid getuid stime ptrace alarm oldfstat pause utime stty gtty access nice ftime sync kill rename mkdir rmdir
            dup pipe times prof brk setgid getgid signal geteuid getegid acct umount2 lock ioctl fcntl mpx setpgid ulimit oldolduname umask
            chroot ustat dup2 getppid getpgrp setsid sigaction sgetmask ssetmask setreuid setregid sigsuspend sigpending sethostname setrlimit
            getrlimit getrusage gettimeofday settimeofday getgroups setgroups select symlink oldlstat readlink uselib swapon reboot readdir
            mmap munmap truncate ftruncate fchmod fchown getpriority setpriority profil statfs fstatfs ioperm socketcall syslog setitimer
            getitimer stat lstat fstat olduname iopl vhangup idle vm86 wait4 swapoff sysinfo ipc fsync sigreturn clone setdomainname uname
            modify_ldt adjtimex mprotect sigprocmask create_module init_module delete_module get_kernel_syms quotactl getpgid fchdir bdflush
            sysfs personality afs_syscall setfsuid setfsgid _llseek getdents _newselect flock msync readv writev getsid fdatasync _sysctl
            mlock munlock mlockall munlockall sched_setparam sched_getparam sched_setscheduler sched_getscheduler sched_yield
            sched_get_priority_max sched_get_priority_min sched_rr_get_interval nanosleep mremap setresuid getresuid query_module poll
            nfsservctl setresgid getresgid prctl rt_sigreturn rt_sigaction rt_sigprocmask rt_sigpending rt_sigtimedwait rt_sigqueueinfo
            rt_sigsuspend pread64 pwrite64 chown getcwd capget capset sigaltstack sendfile getpmsg putpmsg vfork ugetrlimit readahead" ++
  from 198 "pciconfig_read pciconfig_write pciconfig_iobase multiplexer getdents64 pivot_root" ++
  from 205 "madvise mincore gettid tkill setxattr lsetxattr fsetxattr getxattr lgetxattr fgetxattr listxattr llistxattr flistxattr removexattr
            lremovexattr fremovexattr futex sched_setaffinity sched_getaffinity" ++
  from 225 "tuxcall" ++
  from 227 "io_setup io_destroy io_getevents io_submit io_cancel set_tid_address fadvise64 exit_group lookup_dcookie epoll_create epoll_ctl
            epoll_wait remap_file_pages timer_create timer_settime timer_gettime timer_getoverrun timer_delete clock_settime clock_gettime
            clock_getres clock_nanosleep swapcontext tgkill utimes statfs64 fstatfs64" ++
  from 255 "rtas sys_debug_setcontext" ++
  from 258 "migrate_pages mbind get_mempolicy set_mempolicy mq_open mq_unlink mq_timedsend mq_timedreceive mq_notify mq_getsetattr kexec_load
            add_key request_key keyctl waitid ioprio_set ioprio_get inotify_init inotify_add_watch inotify_rm_watch spu_run spu_create
            pselect6 ppoll unshare splice tee vmsplice openat mkdirat mknodat fchownat futimesat" ++
  from 292 "unlinkat renameat linkat symlinkat readlinkat fchmodat faccessat get_robust_list set_robust_list move_pages getcpu epoll_pwait
            utimensat signalfd timerfd_create eventfd sync_file_range2 fallocate subpage_prot timerfd_settime timerfd_gettime signalfd4
            eventfd2 epoll_create1 dup3 pipe2 inotify_init1 perf_event_open preadv pwritev rt_tgsigqueueinfo fanotify_init fanotify_mark
            prlimit64 socket bind connect listen accept getsockname getpeername socketpair send sendto recv recvfrom shutdown setsockopt
            getsockopt sendmsg recvmsg recvmmsg accept4 name_to_handle_at open_by_handle_at clock_adjtime syncfs sendmmsg setns
            process_vm_readv process_vm_writev finit_module kcmp sched_setattr sched_getattr renameat2 seccomp getrandom memfd_create bpf
            execveat switch_endian userfaultfd membarrier" ++
  from 378 "mlock2 copy_file_range preadv2 pwritev2 kexec_file_load statx pkey_alloc pkey_free pkey_mprotect rseq io_pgetevents" ++
  from 393 "semget semctl shmget shmctl shmat shmdt msgget msgsnd msgrcv msgctl" ++
  from 424 "pidfd_send_signal io_uring_setup io_uring_enter io_uring_register open_tree move_mount fsopen fsconfig fsmount fspick pidfd_open
            clone3 close_range openat2 pidfd_getfd faccessat2 process_madvise epoll_pwait2 mount_setattr quotactl_fd landlock_create_ruleset
            landlock_add_rule landlock_restrict_self" ++
  from 448 "process_mrelease futex_waitv set_mempolicy_home_node".
Definition powerpc32_unistd : list (Z * text) :=
  from 192 "mmap2 truncate64 ftruncate64 stat64 lstat64 fstat64" ++
  from 204 "fcntl64" ++
  from 226 "sendfile64" ++
  from 254 "fadvise64_64" ++
  from 291 "fstatat64" ++
  from 403 "clock_gettime64 clock_settime64 clock_adjtime64 clock_getres_time64 clock_nanosleep_time64 timer_gettime64 timer_settime64
            timerfd_gettime64 timerfd_settime64 utimensat_time64 pselect6_time64 ppoll_time64" ++
  from 416 "io_pgetevents_time64 recvmmsg_time64 mq_timedsend_time64 mq_timedreceive_time64 semtimedop_time64 rt_sigtimedwait_time64
            futex_time64 sched_rr_get_interval_time64".
Definition powerpc64_unistd : list (Z * text) :=
  from 291 "newfstatat" ++
  from 392 "semtimedop".
(** sys/syscall.h of FreeBSD 7 *)
Definition freebsd_sys : list (Z * text) :=
  from 0 "syscall exit fork read write open close wait4" ++
  from 9 "link unlink" ++
  from 12 "chdir fchdir mknod chmod chown break freebsd4_getfsstat" ++
  from 20 "getpid mount unmount setuid getuid geteuid ptrace recvmsg sendmsg recvfrom accept getpeername getsockname access chflags fchflags
            sync kill" ++
  from 39 "getppid" ++
  from 41 "dup pipe getegid profil ktrace" ++
  from 47 "getgid" ++
  from 49 "getlogin setlogin acct" ++
  from 53 "sigaltstack ioctl reboot revoke symlink readlink execve umask chroot" ++
  from 65 "msync vfork" ++
  from 69 "sbrk sstk" ++
  from 72 "vadvise munmap mprotect madvise" ++
  from 78 "mincore getgroups setgroups getpgrp setpgid setitimer" ++
  from 85 "swapon getitimer" ++
  from 89 "getdtablesize dup2" ++
  from 92 "fcntl select" ++
  from 95 "fsync setpriority socket connect" ++
  from 100 "getpriority" ++
  from 104 "bind setsockopt listen" ++
  from 116 "gettimeofday getrusage getsockopt" ++
  from 120 "readv writev settimeofday fchown fchmod" ++
  from 126 "setreuid setregid rename" ++
  from 131 "flock mkfifo sendto shutdown socketpair mkdir rmdir utimes" ++
  from 140 "adjtime" ++
  from 147 "setsid quotactl" ++
  from 155 "nfssvc" ++
  from 157 "freebsd4_statfs freebsd4_fstatfs" ++
  from 160 "lgetfh getfh getdomainname setdomainname uname sysarch rtprio" ++
  from 169 "semsys msgsys shmsys" ++
  from 173 "freebsd6_pread freebsd6_pwrite" ++
  from 176 "ntp_adjtime" ++
  from 181 "setgid setegid seteuid" ++
  from 188 "stat fstat lstat pathconf fpathconf" ++
  from 194 "getrlimit setrlimit getdirentries freebsd6_mmap __syscall freebsd6_lseek freebsd6_truncate freebsd6_ftruncate __sysctl mlock
            munlock undelete futimes getpgid" ++
  from 209 "poll" ++
  from 220 "__semctl semget semop" ++
  from 224 "msgctl msgget msgsnd msgrcv shmat shmctl shmdt shmget clock_gettime clock_settime clock_getres ktimer_create ktimer_delete
            ktimer_settime ktimer_gettime ktimer_getoverrun nanosleep" ++
  from 248 "ntp_gettime" ++
  from 250 "minherit rfork openbsd_poll issetugid lchown aio_read aio_write lio_listio" ++
  from 272 "getdents" ++
  from 274 "lchmod netbsd_lchown lutimes netbsd_msync nstat nfstat nlstat" ++
  from 289 "preadv pwritev" ++
  from 297 "freebsd4_fhstatfs fhopen fhstat modnext modstat modfnext modfind kldload kldunload kldfind kldnext kldstat kldfirstmod getsid
            setresuid setresgid" ++
  from 314 "aio_return aio_suspend aio_cancel aio_error oaio_read oaio_write olio_listio yield" ++
  from 324 "mlockall munlockall __getcwd sched_setparam sched_getparam sched_setscheduler sched_getscheduler sched_yield
            sched_get_priority_max sched_get_priority_min sched_rr_get_interval utrace freebsd4_sendfile kldsym jail" ++
  from 340 "sigprocmask sigsuspend freebsd4_sigaction sigpending freebsd4_sigreturn sigtimedwait sigwaitinfo __acl_get_file __acl_set_file
            __acl_get_fd __acl_set_fd __acl_delete_file __acl_delete_fd __acl_aclcheck_file __acl_aclcheck_fd extattrctl extattr_set_file
            extattr_get_file extattr_delete_file aio_waitcomplete getresuid getresgid kqueue kevent" ++
  from 371 "extattr_set_fd extattr_get_fd extattr_delete_fd __setugid nfsclnt eaccess" ++
  from 378 "nmount kse_exit kse_wakeup kse_create kse_thr_interrupt kse_release __mac_get_proc __mac_set_proc __mac_get_fd __mac_get_file
            __mac_set_fd __mac_set_file kenv lchflags uuidgen sendfile mac_syscall getfsstat statfs fstatfs fhstatfs" ++
  from 400 "ksem_close ksem_post ksem_wait ksem_trywait ksem_init ksem_open ksem_unlink ksem_getvalue ksem_destroy __mac_get_pid
            __mac_get_link __mac_set_link extattr_set_link extattr_get_link extattr_delete_link __mac_execve sigaction sigreturn" ++
  from 421 "getcontext setcontext swapcontext swapoff __acl_get_link __acl_set_link __acl_delete_link __acl_aclcheck_link sigwait thr_create
            thr_exit thr_self thr_kill _umtx_lock _umtx_unlock jail_attach extattr_list_fd extattr_list_file extattr_list_link kse_switchin
            ksem_timedwait thr_suspend thr_wake kldunloadf audit auditon getauid setauid getaudit setaudit getaudit_addr setaudit_addr
            auditctl _umtx_op thr_new sigqueue kmq_open kmq_setattr kmq_timedreceive kmq_timedsend kmq_notify kmq_unlink abort2 thr_set_name
            aio_fsync rtprio_thread" ++
  from 471 "sctp_peeloff sctp_generic_sendmsg sctp_generic_sendmsg_iov sctp_generic_recvmsg pread pwrite mmap lseek truncate ftruncate
            thr_kill2".
(** the names under which number [n] is known *)
Definition kernel_names (p : platform) : option (list (Z * text)) :=
  match p_os p, p_cpu p with
  | Linux, X86_64 => Some (x86_64_unistd ++ x32_unistd)
  | Linux, I386 => Some (i386_unistd ++ i386_entry_points)
  | Linux, AARCH64 => Some (generic_unistd ++ generic_unistd_64)
  | Linux, RISCV64 => Some (generic_unistd ++ generic_unistd_64 ++ riscv_unistd)
  | Linux, RISCV32 => Some (generic_unistd ++ generic_unistd_32 ++ riscv_unistd)
  | Linux, PPC32 => Some (powerpc_unistd ++ powerpc32_unistd)
  | Linux, PPC64 => Some (powerpc_unistd ++ powerpc64_unistd)
  | FreeBSD, _ => Some freebsd_sys
  | _, _ => None
  end.
(** numbers up to this one that have a name have one in the table of the library *)
Definition table_covers (p : platform) : Z :=
  match p_os p, p_cpu p with
  | Linux, X86_64 => 440 | Linux, AARCH64 => 439 | Linux, RISCV64 => 450 | Linux, PPC32 | Linux, PPC64 => 277 | FreeBSD, _ => 481 | _, _ => 0
  end.

(** ** Arguments of system calls (section 2 of the manual and linux/syscalls.h): how many *)
Definition calls (n : nat) (names : string) : nat * list text := (n, split_ws (T names)).
Definition arguments : list (nat * list text) :=
  [calls 0 "fork vfork getpid getppid getuid geteuid getgid getegid getuid16 geteuid16 getgid16 getegid16 gettid getpgrp setsid sync pause
      sched_yield munlockall vhangup restart_syscall inotify_init sgetmask ni_syscall";
   calls 1 "exit exit_group close dup brk break chdir fchdir chroot rmdir unlink umask alarm pipe time stime times nice acct uname newuname
      olduname syncfs fsync fdatasync swapoff uselib personality adjtimex sysinfo sched_getscheduler sched_get_priority_max
      sched_get_priority_min epoll_create epoll_create1 eventfd inotify_init1 set_tid_address setuid setgid setuid16 setgid16 setfsuid
      setfsgid setfsuid16 setfsgid16 getpgid getsid mlockall mq_unlink timer_delete timer_getoverrun unshare io_destroy shmdt oldumount
      ssetmask sysctl userfaultfd sigpending old_mmap old_select";
   calls 2 "access chmod fchmod kill tkill rename link symlink mkdir creat dup2 pipe2 stat fstat lstat newstat newfstat newlstat stat64
      fstat64 lstat64 statfs fstatfs truncate ftruncate truncate64 ftruncate64 getcwd __getcwd munmap mlock munlock setpgid setreuid
      setregid setreuid16 setregid16 getgroups setgroups getgroups16 setgroups16 gethostname sethostname setdomainname getrlimit
      setrlimit old_getrlimit getrusage gettimeofday settimeofday getitimer getpriority nanosleep sigaltstack signal flock listen
      shutdown utime utimes ustat swapon umount pivot_root capget capset clock_gettime clock_settime clock_getres clock_adjtime
      timer_gettime timerfd_create timerfd_gettime sched_getparam sched_setparam sched_rr_get_interval rt_sigpending rt_sigsuspend
      delete_module removexattr lremovexattr fremovexattr io_setup inotify_rm_watch eventfd2 msgget set_robust_list setns memfd_create
      membarrier fanotify_init mq_notify bdflush socketcall ioprio_get";
   calls 3 "read write open readv writev lseek ioctl fcntl fcntl64 chown fchown lchown chown16 fchown16 lchown16 mknod execve readlink
      getdents getdents64 waitpid poll mprotect msync madvise mincore dup3 connect accept bind getsockname getpeername socket sendmsg
      recvmsg sched_setscheduler sched_setaffinity sched_getaffinity setpriority setitimer getresuid getresgid getresuid16 getresgid16
      setresuid setresgid setresuid16 setresgid16 sigaction sigprocmask sigsuspend syslog init_module finit_module mkdirat unlinkat
      symlinkat faccessat fchmodat futimesat listxattr llistxattr flistxattr tgkill rt_sigqueueinfo timer_create mlock2 ioperm sysfs
      statfs64 fstatfs64 getcpu get_robust_list io_submit io_cancel open_by_handle_at inotify_add_watch readahead shmat shmctl shmget
      semget semop msgctl mq_getsetattr sched_setattr seccomp getrandom bpf lookup_dcookie old_readdir set_mempolicy ioprio_set signalfd
      spu_run pciconfig_iobase";
   calls 4 "ptrace wait4 rt_sigaction rt_sigprocmask rt_sigtimedwait pread64 pread pwrite64 pwrite openat mknodat readlinkat renameat
      newfstatat fstatat64 fstatat accept4 socketpair epoll_ctl epoll_wait sendfile sendfile64 getxattr lgetxattr fgetxattr reboot
      quotactl fallocate fadvise64 fadvise64_64 posix_fadvise sync_file_range sync_file_range2 tee vmsplice clock_nanosleep
      timer_settime timerfd_settime msgsnd semctl semtimedop request_key migrate_pages kexec_load mq_open utimensat prlimit64 prlimit
      rt_tgsigqueueinfo sendmmsg signalfd4 spu_create sched_getattr send recv";
   calls 5 "select mount clone prctl mremap setxattr lsetxattr fsetxattr fchownat linkat renameat2 execveat setsockopt getsockopt ppoll
      waitid keyctl add_key preadv pwritev recvmmsg msgrcv mq_timedsend mq_timedreceive get_mempolicy io_getevents perf_event_open
      name_to_handle_at kcmp kexec_file_load fanotify_mark llseek remap_file_pages statx pciconfig_read pciconfig_write";
   calls 6 "mmap_pgoff mmap mmap2 futex sendto recvfrom splice copy_file_range pselect6 pselect epoll_pwait mbind move_pages
      process_vm_readv process_vm_writev ipc"].
Definition arity (name : text) : option nat :=
  match find (fun e => existsb (text_eqb name) (snd e)) arguments with Some e => Some (fst e) | None => None end.

(** ** Arguments that are file names: position, system calls *)
Definition path_positions : list (nat * list text) :=
  [calls 0 "access acct chdir chmod chown chown16 chroot creat execve getcwd __getcwd getxattr lchown lchown16 lgetxattr link listxattr llistxattr
      lremovexattr lsetxattr lstat lstat64 mkdir mknod mount newlstat newstat oldumount open pivot_root readlink removexattr rename rmdir
      setxattr spu_create stat stat64 statfs statfs64 swapoff swapon symlink symlinkat truncate truncate64 umount unlink uselib utime utimes";
   calls 1 "execveat faccessat fchmodat fchownat fstatat64 fstatat futimesat newfstatat inotify_add_watch link linkat mkdirat mknodat mount
      name_to_handle_at openat pivot_root quotactl readlinkat rename renameat renameat2 statx symlink unlinkat utimensat";
   calls 2 "symlinkat"; calls 3 "linkat renameat renameat2"; calls 4 "fanotify_mark"].
Definition is_path (name : text) (pos : nat) : Prop :=
  exists names, In (pos, names) path_positions /\ In name names.
(** calls on whole file systems, swap files, accounting, libraries and file handles *)
Definition file_system_calls : list text := split_ws (T "acct mount oldumount pivot_root quotactl spu_create swapoff swapon umount uselib name_to_handle_at").
