(** * TabModel: the tables of ptrace/syscall: prototypes, system call numbers of every architecture, names of constants.
    Transcribed by a script from the dictionaries of the sources; the order of the entries is the order of the source. *)
From Coq Require Import ZArith List Ascii String Bool.
From Verif Require Import PyBase Platform.
Import ListNotations.
Open Scope Z_scope.

Local Definition proto (name restype : string) (formats : list (string * string)) : text * (text * list (text * text)) :=
  (T name, (T restype, map (fun f => (T (fst f), T (snd f))) formats)).
Local Definition number (n : Z) (name : string) : Z * text := (n, T name).

(** ptrace/syscall/prototypes.py 7-17 *)
Definition ALIASES : list (text * list text) :=
  [(T "brk", [T "break"]);
   (T "fadvise64", [T "posix_fadvise"]);
   (T "fstatat64", [T "fstatat"]);
   (T "getcwd", [T "__getcwd"]);
   (T "mmap_pgoff", [T "mmap"; T "mmap2"]);
   (T "pread64", [T "pread"]);
   (T "prlimit64", [T "prlimit"]);
   (T "pselect6", [T "pselect"]);
   (T "pwrite64", [T "pwrite"])].
(** ptrace/syscall/prototypes.py 20-21 *)
Definition FILENAME_ARGUMENTS : list text := [T "filename"; T "pathname"; T "path"; T "oldname"; T "newname"; T "old"; T "new"].
(** ptrace/syscall/prototypes.py 23-1767 *)
Definition prototypes_0 : list (text * (text * list (text * text))) :=
  [proto "accept" "long" [("int", "sockfd"); ("struct sockaddr *", "addr"); ("int *", "addrlen")];
   proto "accept4" "long" [("int", "sockfd"); ("struct sockaddr *", "addr"); ("int *", "addrlen"); ("int", "flags")];
   proto "access" "long" [("const char *", "filename"); ("int", "mode")];
   proto "acct" "long" [("const char *", "name")];
   proto "add_key" "long" [("const char *", "_type"); ("const char *", "_description"); ("const void *", "_payload"); ("size_t", "plen"); ("key_serial_t", "destringid")];
   proto "adjtimex" "long" [("struct timex *", "txc_p")];
   proto "alarm" "long" [("unsigned int", "seconds")];
   proto "bdflush" "long" [("int", "func"); ("long", "data")];
   proto "bind" "long" [("int", "sockfd"); ("struct sockaddr *", "addr"); ("int", "addrlen")];
   proto "bpf" "long" [("int", "cmd"); ("union bpf_attr *", "attr"); ("unsigned int", "size")];
   proto "brk" "long" [("unsigned long", "brk")];
   proto "capget" "long" [("cap_user_header_t", "header"); ("cap_user_data_t", "dataptr")];
   proto "capset" "long" [("cap_user_header_t", "header"); ("const cap_user_data_t", "data")];
   proto "chdir" "long" [("const char *", "filename")];
   proto "chmod" "long" [("const char *", "filename"); ("umode_t", "mode")];
   proto "chown" "long" [("const char *", "filename"); ("uid_t", "user"); ("gid_t", "group")];
   proto "chown16" "long" [("const char *", "filename"); ("old_uid_t", "user"); ("old_gid_t", "group")];
   proto "chroot" "long" [("const char *", "filename")];
   proto "clock_adjtime" "long" [("clockid_t", "which_clock"); ("struct timex *", "tx")];
   proto "clock_getres" "long" [("clockid_t", "which_clock"); ("struct timespec *", "tp")];
   proto "clock_gettime" "long" [("clockid_t", "which_clock"); ("struct timespec *", "tp")];
   proto "clock_nanosleep" "long" [("clockid_t", "which_clock"); ("int", "flags"); ("const struct timespec *", "rqtp"); ("struct timespec *", "rmtp")];
   proto "clock_settime" "long" [("clockid_t", "which_clock"); ("const struct timespec *", "tp")];
   proto "clone" "long" [("unsigned long", "flags"); ("unsigned long", "child_stack"); ("int *", "ptid"); ("int *", "ctid"); ("unsigned long", "regs")];
   proto "close" "long" [("unsigned int", "fd")];
   proto "connect" "long" [("int", "sockfd"); ("struct sockaddr *", "addr"); ("int", "addrlen")];
   proto "copy_file_range" "long" [("int", "fd_in"); ("loff_t *", "off_in"); ("int", "fd_out"); ("loff_t *", "off_out"); ("size_t", "len"); ("unsigned int", "flags")];
   proto "creat" "long" [("const char *", "pathname"); ("umode_t", "mode")];
   proto "delete_module" "long" [("const char *", "name_user"); ("unsigned int", "flags")];
   proto "dup" "long" [("unsigned int", "fildes")];
   proto "dup2" "long" [("unsigned int", "oldfd"); ("unsigned int", "newfd")];
   proto "dup3" "long" [("unsigned int", "oldfd"); ("unsigned int", "newfd"); ("int", "flags")];
   proto "epoll_create" "long" [("int", "size")];
   proto "epoll_create1" "long" [("int", "flags")];
   proto "epoll_ctl" "long" [("int", "epfd"); ("int", "op"); ("int", "fd"); ("struct epoll_event *", "event")];
   proto "epoll_pwait" "long" [("int", "epfd"); ("struct epoll_event *", "events"); ("int", "maxevents"); ("int", "timeout"); ("const sigset_t *", "sigmask"); ("size_t", "sigsetsize")];
   proto "epoll_wait" "long" [("int", "epfd"); ("struct epoll_event *", "events"); ("int", "maxevents"); ("int", "timeout")];
   proto "eventfd" "long" [("unsigned int", "count")];
   proto "eventfd2" "long" [("unsigned int", "count"); ("int", "flags")];
   proto "execve" "long" [("const char *", "filename"); ("const char *const *", "argv"); ("const char *const *", "envp")];
   proto "execveat" "long" [("int", "dfd"); ("const char *", "filename"); ("const char *const *", "argv"); ("const char *const *", "envp"); ("int", "flags")];
   proto "exit" "long" [("int", "error_code")];
   proto "exit_group" "long" [("int", "error_code")];
   proto "faccessat" "long" [("int", "dfd"); ("const char *", "filename"); ("int", "mode")];
   proto "fadvise64" "long" [("int", "fd"); ("loff_t", "offset"); ("size_t", "len"); ("int", "advice")];
   proto "fadvise64_64" "long" [("int", "fd"); ("loff_t", "offset"); ("loff_t", "len"); ("int", "advice")];
   proto "fallocate" "long" [("int", "fd"); ("int", "mode"); ("loff_t", "offset"); ("loff_t", "len")];
   proto "fanotify_init" "long" [("unsigned int", "flags"); ("unsigned int", "event_f_flags")]]%string.
Definition prototypes_1 : list (text * (text * list (text * text))) :=
  [proto "fanotify_mark" "long" [("int", "fanotify_fd"); ("unsigned int", "flags"); ("u64", "mask"); ("int", "fd"); ("const char *", "pathname")];
   proto "fchdir" "long" [("unsigned int", "fd")];
   proto "fchmod" "long" [("unsigned int", "fd"); ("umode_t", "mode")];
   proto "fchmodat" "long" [("int", "dfd"); ("const char *", "filename"); ("umode_t", "mode")];
   proto "fchown" "long" [("unsigned int", "fd"); ("uid_t", "user"); ("gid_t", "group")];
   proto "fchown16" "long" [("unsigned int", "fd"); ("old_uid_t", "user"); ("old_gid_t", "group")];
   proto "fchownat" "long" [("int", "dfd"); ("const char *", "filename"); ("uid_t", "user"); ("gid_t", "group"); ("int", "flag")];
   proto "fcntl" "long" [("unsigned int", "fd"); ("unsigned int", "cmd"); ("unsigned long", "arg")];
   proto "fcntl64" "long" [("unsigned int", "fd"); ("unsigned int", "cmd"); ("unsigned long", "arg")];
   proto "fdatasync" "long" [("unsigned int", "fd")];
   proto "fgetxattr" "long" [("int", "fd"); ("const char *", "name"); ("void *", "value"); ("size_t", "size")];
   proto "finit_module" "long" [("int", "fd"); ("const char *", "uargs"); ("int", "flags")];
   proto "flistxattr" "long" [("int", "fd"); ("char *", "list"); ("size_t", "size")];
   proto "flock" "long" [("unsigned int", "fd"); ("unsigned int", "cmd")];
   proto "fork" "long" [];
   proto "fremovexattr" "long" [("int", "fd"); ("const char *", "name")];
   proto "fsetxattr" "long" [("int", "fd"); ("const char *", "name"); ("const void *", "value"); ("size_t", "size"); ("int", "flags")];
   proto "fstat" "long" [("unsigned int", "fd"); ("struct __old_kernel_stat *", "statbuf")];
   proto "fstat64" "long" [("unsigned long", "fd"); ("struct stat64 *", "statbuf")];
   proto "fstatat64" "long" [("int", "dfd"); ("const char *", "filename"); ("struct stat64 *", "statbuf"); ("int", "flag")];
   proto "fstatfs" "long" [("unsigned int", "fd"); ("struct statfs *", "buf")];
   proto "fstatfs64" "long" [("unsigned int", "fd"); ("size_t", "sz"); ("struct statfs64 *", "buf")];
   proto "fsync" "long" [("unsigned int", "fd")];
   proto "ftruncate" "long" [("unsigned int", "fd"); ("unsigned long", "length")];
   proto "ftruncate64" "long" [("unsigned int", "fd"); ("loff_t", "length")];
   proto "futex" "long" [("u32 *", "uaddr"); ("int", "op"); ("u32", "val"); ("struct timespec *", "utime"); ("u32 *", "uaddr2"); ("u32", "val3")];
   proto "futimesat" "long" [("int", "dfd"); ("const char *", "filename"); ("struct timeval *", "utimes")];
   proto "get_mempolicy" "long" [("int *", "policy"); ("unsigned long *", "nmask"); ("unsigned long", "maxnode"); ("unsigned long", "addr"); ("unsigned long", "flags")];
   proto "get_robust_list" "long" [("int", "pid"); ("struct robust_list_head * *", "head_ptr"); ("size_t *", "len_ptr")];
   proto "getcpu" "long" [("unsigned *", "cpu"); ("unsigned *", "node"); ("struct getcpu_cache *", "cache")];
   proto "getcwd" "long" [("char *", "pathname"); ("unsigned long", "size")];
   proto "getdents" "long" [("unsigned int", "fd"); ("struct linux_dirent *", "dirent"); ("unsigned int", "count")];
   proto "getdents64" "long" [("unsigned int", "fd"); ("struct linux_dirent64 *", "dirent"); ("unsigned int", "count")];
   proto "getegid" "long" [];
   proto "getegid16" "long" [];
   proto "geteuid" "long" [];
   proto "geteuid16" "long" [];
   proto "getgid" "long" [];
   proto "getgid16" "long" [];
   proto "getgroups" "long" [("int", "gidsetsize"); ("gid_t *", "grouplist")];
   proto "getgroups16" "long" [("int", "gidsetsize"); ("old_gid_t *", "grouplist")];
   proto "gethostname" "long" [("char *", "name"); ("int", "len")];
   proto "getitimer" "long" [("int", "which"); ("struct itimerval *", "value")];
   proto "getpeername" "long" [("int", "sockfd"); ("struct sockaddr *", "addr"); ("int *", "addrlen")];
   proto "getpgid" "long" [("pid_t", "pid")];
   proto "getpgrp" "long" [];
   proto "getpid" "long" [];
   proto "getppid" "long" []]%string.
Definition prototypes_2 : list (text * (text * list (text * text))) :=
  [proto "getpriority" "long" [("int", "which"); ("int", "who")];
   proto "getrandom" "long" [("char *", "buf"); ("size_t", "count"); ("unsigned int", "flags")];
   proto "getresgid" "long" [("gid_t *", "rgid"); ("gid_t *", "egid"); ("gid_t *", "sgid")];
   proto "getresgid16" "long" [("old_gid_t *", "rgid"); ("old_gid_t *", "egid"); ("old_gid_t *", "sgid")];
   proto "getresuid" "long" [("uid_t *", "ruid"); ("uid_t *", "euid"); ("uid_t *", "suid")];
   proto "getresuid16" "long" [("old_uid_t *", "ruid"); ("old_uid_t *", "euid"); ("old_uid_t *", "suid")];
   proto "getrlimit" "long" [("unsigned int", "resource"); ("struct rlimit *", "rlim")];
   proto "getrusage" "long" [("int", "who"); ("struct rusage *", "ru")];
   proto "getsid" "long" [("pid_t", "pid")];
   proto "getsockname" "long" [("int", "sockfd"); ("struct sockaddr *", "addr"); ("int *", "addrlen")];
   proto "getsockopt" "long" [("int", "fd"); ("int", "level"); ("int", "optname"); ("char *", "optval"); ("int *", "optlen")];
   proto "gettid" "long" [];
   proto "gettimeofday" "long" [("struct timeval *", "tv"); ("struct timezone *", "tz")];
   proto "getuid" "long" [];
   proto "getuid16" "long" [];
   proto "getxattr" "long" [("const char *", "path"); ("const char *", "name"); ("void *", "value"); ("size_t", "size")];
   proto "init_module" "long" [("void *", "umod"); ("unsigned long", "len"); ("const char *", "uargs")];
   proto "inotify_add_watch" "long" [("int", "fd"); ("const char *", "path"); ("u32", "mask")];
   proto "inotify_init" "long" [];
   proto "inotify_init1" "long" [("int", "flags")];
   proto "inotify_rm_watch" "long" [("int", "fd"); ("__s32", "wd")];
   proto "io_cancel" "long" [("aio_context_t", "ctx_id"); ("struct iocb *", "iocb"); ("struct io_event *", "result")];
   proto "io_destroy" "long" [("aio_context_t", "ctx")];
   proto "io_getevents" "long" [("aio_context_t", "ctx_id"); ("long", "min_nr"); ("long", "nr"); ("struct io_event *", "events"); ("struct timespec *", "timeout")];
   proto "io_setup" "long" [("unsigned", "nr_reqs"); ("aio_context_t *", "ctx")];
   proto "io_submit" "long" [("aio_context_t", "ctx_id"); ("long", "nr"); ("struct iocb * *", "iocbpp")];
   proto "ioctl" "long" [("unsigned int", "fd"); ("unsigned int", "cmd"); ("unsigned long", "arg")];
   proto "ioperm" "long" [("unsigned long", "from"); ("unsigned long", "num"); ("int", "on")];
   proto "ioprio_get" "long" [("int", "which"); ("int", "who")];
   proto "ioprio_set" "long" [("int", "which"); ("int", "who"); ("int", "ioprio")];
   proto "ipc" "long" [("unsigned int", "call"); ("int", "first"); ("unsigned long", "second"); ("unsigned long", "third"); ("void *", "ptr"); ("long", "fifth")];
   proto "kcmp" "long" [("pid_t", "pid1"); ("pid_t", "pid2"); ("int", "type"); ("unsigned long", "idx1"); ("unsigned long", "idx2")];
   proto "kexec_file_load" "long" [("int", "kernel_fd"); ("int", "initrd_fd"); ("unsigned long", "cmdline_len"); ("const char *", "cmdline_ptr"); ("unsigned long", "flags")];
   proto "kexec_load" "long" [("unsigned long", "entry"); ("unsigned long", "nr_segments"); ("struct kexec_segment *", "segments"); ("unsigned long", "flags")];
   proto "keyctl" "long" [("int", "cmd"); ("unsigned long", "arg2"); ("unsigned long", "arg3"); ("unsigned long", "arg4"); ("unsigned long", "arg5")];
   proto "kill" "long" [("int", "pid"); ("int", "sig")];
   proto "lchown" "long" [("const char *", "filename"); ("uid_t", "user"); ("gid_t", "group")];
   proto "lchown16" "long" [("const char *", "filename"); ("old_uid_t", "user"); ("old_gid_t", "group")];
   proto "lgetxattr" "long" [("const char *", "path"); ("const char *", "name"); ("void *", "value"); ("size_t", "size")];
   proto "link" "long" [("const char *", "oldname"); ("const char *", "newname")];
   proto "linkat" "long" [("int", "olddfd"); ("const char *", "oldname"); ("int", "newdfd"); ("const char *", "newname"); ("int", "flags")];
   proto "listen" "long" [("int", "sockfd"); ("int", "backlog")];
   proto "listxattr" "long" [("const char *", "path"); ("char *", "list"); ("size_t", "size")];
   proto "llistxattr" "long" [("const char *", "path"); ("char *", "list"); ("size_t", "size")];
   proto "llseek" "long" [("unsigned int", "fd"); ("unsigned long", "offset_high"); ("unsigned long", "offset_low"); ("loff_t *", "result"); ("unsigned int", "whence")];
   proto "lookup_dcookie" "long" [("u64", "cookie64"); ("char *", "buf"); ("size_t", "len")];
   proto "lremovexattr" "long" [("const char *", "path"); ("const char *", "name")];
   proto "lseek" "long" [("unsigned int", "fd"); ("off_t", "offset"); ("unsigned int", "whence")]]%string.
Definition prototypes_3 : list (text * (text * list (text * text))) :=
  [proto "lsetxattr" "long" [("const char *", "path"); ("const char *", "name"); ("const void *", "value"); ("size_t", "size"); ("int", "flags")];
   proto "lstat" "long" [("const char *", "filename"); ("struct __old_kernel_stat *", "statbuf")];
   proto "lstat64" "long" [("const char *", "filename"); ("struct stat64 *", "statbuf")];
   proto "madvise" "long" [("unsigned long", "start"); ("size_t", "len"); ("int", "behavior")];
   proto "mbind" "long" [("unsigned long", "start"); ("unsigned long", "len"); ("unsigned long", "mode"); ("const unsigned long *", "nmask"); ("unsigned long", "maxnode"); ("unsigned", "flags")];
   proto "membarrier" "long" [("int", "cmd"); ("int", "flags")];
   proto "memfd_create" "long" [("const char *", "uname_ptr"); ("unsigned int", "flags")];
   proto "migrate_pages" "long" [("pid_t", "pid"); ("unsigned long", "maxnode"); ("const unsigned long *", "from"); ("const unsigned long *", "to")];
   proto "mincore" "long" [("unsigned long", "start"); ("size_t", "len"); ("unsigned char *", "vec")];
   proto "mkdir" "long" [("const char *", "pathname"); ("umode_t", "mode")];
   proto "mkdirat" "long" [("int", "dfd"); ("const char *", "pathname"); ("umode_t", "mode")];
   proto "mknod" "long" [("const char *", "filename"); ("umode_t", "mode"); ("unsigned", "dev")];
   proto "mknodat" "long" [("int", "dfd"); ("const char *", "filename"); ("umode_t", "mode"); ("unsigned", "dev")];
   proto "mlock" "long" [("unsigned long", "start"); ("size_t", "len")];
   proto "mlock2" "long" [("unsigned long", "start"); ("size_t", "len"); ("int", "flags")];
   proto "mlockall" "long" [("int", "flags")];
   proto "mmap_pgoff" "long" [("unsigned long", "addr"); ("unsigned long", "len"); ("unsigned long", "prot"); ("unsigned long", "flags"); ("unsigned long", "fd"); ("unsigned long", "pgoff")];
   proto "mount" "long" [("char *", "dev_name"); ("char *", "dir_name"); ("char *", "type"); ("unsigned long", "flags"); ("void *", "data")];
   proto "move_pages" "long" [("pid_t", "pid"); ("unsigned long", "nr_pages"); ("const void * *", "pages"); ("const int *", "nodes"); ("int *", "status"); ("int", "flags")];
   proto "mprotect" "long" [("unsigned long", "start"); ("size_t", "len"); ("unsigned long", "prot")];
   proto "mq_getsetattr" "long" [("mqd_t", "mqdes"); ("const struct mq_attr *", "mqstat"); ("struct mq_attr *", "omqstat")];
   proto "mq_notify" "long" [("mqd_t", "mqdes"); ("const struct sigevent *", "notification")];
   proto "mq_open" "long" [("const char *", "name"); ("int", "oflag"); ("umode_t", "mode"); ("struct mq_attr *", "attr")];
   proto "mq_timedreceive" "long" [("mqd_t", "mqdes"); ("char *", "msg_ptr"); ("size_t", "msg_len"); ("unsigned int *", "msg_prio"); ("const struct timespec *", "abs_timeout")];
   proto "mq_timedsend" "long" [("mqd_t", "mqdes"); ("const char *", "msg_ptr"); ("size_t", "msg_len"); ("unsigned int", "msg_prio"); ("const struct timespec *", "abs_timeout")];
   proto "mq_unlink" "long" [("const char *", "name")];
   proto "mremap" "long" [("unsigned long", "addr"); ("unsigned long", "old_len"); ("unsigned long", "new_len"); ("unsigned long", "flags"); ("unsigned long", "new_addr")];
   proto "msgctl" "long" [("int", "msqid"); ("int", "cmd"); ("struct msqid_ds *", "buf")];
   proto "msgget" "long" [("key_t", "key"); ("int", "msgflg")];
   proto "msgrcv" "long" [("int", "msqid"); ("struct msgbuf *", "msgp"); ("size_t", "msgsz"); ("long", "msgtyp"); ("int", "msgflg")];
   proto "msgsnd" "long" [("int", "msqid"); ("struct msgbuf *", "msgp"); ("size_t", "msgsz"); ("int", "msgflg")];
   proto "msync" "long" [("unsigned long", "start"); ("size_t", "len"); ("int", "flags")];
   proto "munlock" "long" [("unsigned long", "start"); ("size_t", "len")];
   proto "munlockall" "long" [];
   proto "munmap" "long" [("unsigned long", "addr"); ("size_t", "len")];
   proto "name_to_handle_at" "long" [("int", "dirfd"); ("const char *", "name"); ("struct file_handle *", "handle"); ("int *", "mnt_id"); ("int", "flag")];
   proto "nanosleep" "long" [("struct timespec *", "rqtp"); ("struct timespec *", "rmtp")];
   proto "newfstat" "long" [("unsigned int", "fd"); ("struct stat *", "statbuf")];
   proto "newfstatat" "long" [("int", "dfd"); ("const char *", "filename"); ("struct stat *", "statbuf"); ("int", "flag")];
   proto "newlstat" "long" [("const char *", "filename"); ("struct stat *", "statbuf")];
   proto "newstat" "long" [("const char *", "filename"); ("struct stat *", "statbuf")];
   proto "newuname" "long" [("struct new_utsname *", "name")];
   proto "ni_syscall" "long" [];
   proto "nice" "long" [("int", "increment")];
   proto "old_getrlimit" "long" [("unsigned int", "resource"); ("struct rlimit *", "rlim")];
   proto "old_mmap" "long" [("struct mmap_arg_struct *", "arg")];
   proto "old_readdir" "long" [("unsigned int", "fd"); ("struct old_linux_dirent *", "dirp"); ("unsigned int", "count")];
   proto "old_select" "long" [("struct sel_arg_struct *", "arg")]]%string.
Definition prototypes_4 : list (text * (text * list (text * text))) :=
  [proto "oldumount" "long" [("char *", "name")];
   proto "olduname" "long" [("struct oldold_utsname *", "buf")];
   proto "open" "long" [("const char *", "filename"); ("int", "flags"); ("umode_t", "mode")];
   proto "open_by_handle_at" "long" [("int", "mount_fd"); ("struct file_handle *", "handle"); ("int", "flags")];
   proto "openat" "long" [("int", "dirfd"); ("const char *", "filename"); ("int", "flags"); ("umode_t", "mode")];
   proto "pause" "long" [];
   proto "pciconfig_iobase" "long" [("long", "which"); ("unsigned long", "bus"); ("unsigned long", "devfn")];
   proto "pciconfig_read" "long" [("unsigned long", "bus"); ("unsigned long", "dfn"); ("unsigned long", "off"); ("unsigned long", "len"); ("void *", "buf")];
   proto "pciconfig_write" "long" [("unsigned long", "bus"); ("unsigned long", "dfn"); ("unsigned long", "off"); ("unsigned long", "len"); ("void *", "buf")];
   proto "perf_event_open" "long" [("struct perf_event_attr *", "attr_uptr"); ("pid_t", "pid"); ("int", "cpu"); ("int", "group_fd"); ("unsigned long", "flags")];
   proto "personality" "long" [("unsigned int", "personality")];
   proto "pipe" "long" [("int[2]", "fildes")];
   proto "pipe2" "long" [("int[2]", "fildes"); ("int", "flags")];
   proto "pivot_root" "long" [("const char *", "new_root"); ("const char *", "put_old")];
   proto "poll" "long" [("struct pollfd *", "ufds"); ("unsigned int", "nfds"); ("int", "timeout")];
   proto "ppoll" "long" [("struct pollfd *", "fds"); ("unsigned int", "nfds"); ("struct timespec *", "tmo_p"); ("const sigset_t *", "sigmask"); ("size_t", "")];
   proto "prctl" "long" [("int", "option"); ("unsigned long", "arg2"); ("unsigned long", "arg3"); ("unsigned long", "arg4"); ("unsigned long", "arg5")];
   proto "pread64" "long" [("unsigned int", "fd"); ("char *", "buf"); ("size_t", "count"); ("loff_t", "pos")];
   proto "preadv" "long" [("unsigned long", "fd"); ("const struct iovec *", "vec"); ("unsigned long", "vlen"); ("unsigned long", "pos_l"); ("unsigned long", "pos_h")];
   proto "prlimit64" "long" [("pid_t", "pid"); ("unsigned int", "resource"); ("const struct rlimit64 *", "new_rlim"); ("struct rlimit64 *", "old_rlim")];
   proto "process_vm_readv" "long" [("pid_t", "pid"); ("const struct iovec *", "lvec"); ("unsigned long", "liovcnt"); ("const struct iovec *", "rvec"); ("unsigned long", "riovcnt"); ("unsigned long", "flags")];
   proto "process_vm_writev" "long" [("pid_t", "pid"); ("const struct iovec *", "lvec"); ("unsigned long", "liovcnt"); ("const struct iovec *", "rvec"); ("unsigned long", "riovcnt"); ("unsigned long", "flags")];
   proto "pselect6" "long" [("int", "nfds"); ("fd_set *", "readfds"); ("fd_set *", "writefds"); ("fd_set *", "exceptfds"); ("struct timespec *", "timeout"); ("void *", "sigmask")];
   proto "ptrace" "long" [("long", "request"); ("long", "pid"); ("unsigned long", "addr"); ("unsigned long", "data")];
   proto "pwrite64" "long" [("unsigned int", "fd"); ("const char *", "buf"); ("size_t", "count"); ("loff_t", "pos")];
   proto "pwritev" "long" [("unsigned long", "fd"); ("const struct iovec *", "vec"); ("unsigned long", "vlen"); ("unsigned long", "pos_l"); ("unsigned long", "pos_h")];
   proto "quotactl" "long" [("unsigned int", "cmd"); ("const char *", "special"); ("qid_t", "id"); ("void *", "addr")];
   proto "read" "long" [("unsigned int", "fd"); ("char *", "buf"); ("size_t", "count")];
   proto "readahead" "long" [("int", "fd"); ("loff_t", "offset"); ("size_t", "count")];
   proto "readlink" "long" [("const char *", "path"); ("char *", "buf"); ("int", "bufsiz")];
   proto "readlinkat" "long" [("int", "dfd"); ("const char *", "path"); ("char *", "buf"); ("int", "bufsiz")];
   proto "readv" "long" [("unsigned long", "fd"); ("const struct iovec *", "vec"); ("unsigned long", "vlen")];
   proto "reboot" "long" [("int", "magic1"); ("int", "magic2"); ("unsigned int", "cmd"); ("void *", "arg")];
   proto "recv" "long" [("int", "sockfd"); ("void *", "buf"); ("size_t", "len"); ("unsigned", "flags")];
   proto "recvfrom" "long" [("int", "sockfd"); ("void *", "buf"); ("size_t", "len"); ("unsigned", "flags"); ("struct sockaddr *", "src_addr"); ("int *", "addrlen")];
   proto "recvmmsg" "long" [("int", "fd"); ("struct mmsghdr *", "msg"); ("unsigned int", "vlen"); ("unsigned", "flags"); ("struct timespec *", "timeout")];
   proto "recvmsg" "long" [("int", "fd"); ("struct user_msghdr *", "msg"); ("unsigned", "flags")];
   proto "remap_file_pages" "long" [("unsigned long", "start"); ("unsigned long", "size"); ("unsigned long", "prot"); ("unsigned long", "pgoff"); ("unsigned long", "flags")];
   proto "removexattr" "long" [("const char *", "path"); ("const char *", "name")];
   proto "rename" "long" [("const char *", "oldname"); ("const char *", "newname")];
   proto "renameat" "long" [("int", "olddfd"); ("const char *", "oldname"); ("int", "newdfd"); ("const char *", "newname")];
   proto "renameat2" "long" [("int", "olddfd"); ("const char *", "oldname"); ("int", "newdfd"); ("const char *", "newname"); ("unsigned int", "flags")];
   proto "request_key" "long" [("const char *", "_type"); ("const char *", "_description"); ("const char *", "_callout_info"); ("key_serial_t", "destringid")];
   proto "restart_syscall" "long" [];
   proto "rmdir" "long" [("const char *", "pathname")];
   proto "rt_sigaction" "long" [("int", "signum"); ("const struct sigaction *", "act"); ("struct sigaction *", "oldact"); ("size_t", "")];
   proto "rt_sigpending" "long" [("sigset_t *", "set"); ("size_t", "sigsetsize")];
   proto "rt_sigprocmask" "long" [("int", "how"); ("sigset_t *", "set"); ("sigset_t *", "oset"); ("size_t", "sigsetsize")]]%string.
Definition prototypes_5 : list (text * (text * list (text * text))) :=
  [proto "rt_sigqueueinfo" "long" [("int", "pid"); ("int", "sig"); ("siginfo_t *", "uinfo")];
   proto "rt_sigsuspend" "long" [("sigset_t *", "unewset"); ("size_t", "sigsetsize")];
   proto "rt_sigtimedwait" "long" [("const sigset_t *", "uthese"); ("siginfo_t *", "uinfo"); ("const struct timespec *", "uts"); ("size_t", "sigsetsize")];
   proto "rt_tgsigqueueinfo" "long" [("pid_t", "tgid"); ("pid_t", "pid"); ("int", "sig"); ("siginfo_t *", "uinfo")];
   proto "sched_get_priority_max" "long" [("int", "policy")];
   proto "sched_get_priority_min" "long" [("int", "policy")];
   proto "sched_getaffinity" "long" [("pid_t", "pid"); ("unsigned int", "len"); ("unsigned long *", "user_mask_ptr")];
   proto "sched_getattr" "long" [("pid_t", "pid"); ("struct sched_attr *", "attr"); ("unsigned int", "size"); ("unsigned int", "flags")];
   proto "sched_getparam" "long" [("pid_t", "pid"); ("struct sched_param *", "param")];
   proto "sched_getscheduler" "long" [("pid_t", "pid")];
   proto "sched_rr_get_interval" "long" [("pid_t", "pid"); ("struct timespec *", "interval")];
   proto "sched_setaffinity" "long" [("pid_t", "pid"); ("unsigned int", "len"); ("unsigned long *", "user_mask_ptr")];
   proto "sched_setattr" "long" [("pid_t", "pid"); ("struct sched_attr *", "attr"); ("unsigned int", "flags")];
   proto "sched_setparam" "long" [("pid_t", "pid"); ("struct sched_param *", "param")];
   proto "sched_setscheduler" "long" [("pid_t", "pid"); ("int", "policy"); ("struct sched_param *", "param")];
   proto "sched_yield" "long" [];
   proto "seccomp" "long" [("unsigned int", "op"); ("unsigned int", "flags"); ("const char *", "uargs")];
   proto "select" "long" [("int", "nfds"); ("fd_set *", "readfds"); ("fd_set *", "writefds"); ("fd_set *", "errorfds"); ("struct timeval *", "timeout")];
   proto "semctl" "long" [("int", "semid"); ("int", "semnum"); ("int", "cmd"); ("unsigned long", "arg")];
   proto "semget" "long" [("key_t", "key"); ("int", "nsems"); ("int", "semflg")];
   proto "semop" "long" [("int", "semid"); ("struct sembuf *", "sops"); ("unsigned", "nsops")];
   proto "semtimedop" "long" [("int", "semid"); ("struct sembuf *", "sops"); ("unsigned", "nsops"); ("const struct timespec *", "timeout")];
   proto "send" "long" [("int", "sockfd"); ("void *", "buf"); ("size_t", "len"); ("unsigned", "flags")];
   proto "sendfile" "long" [("int", "out_fd"); ("int", "in_fd"); ("off_t *", "offset"); ("size_t", "count")];
   proto "sendfile64" "long" [("int", "out_fd"); ("int", "in_fd"); ("loff_t *", "offset"); ("size_t", "count")];
   proto "sendmmsg" "long" [("int", "fd"); ("struct mmsghdr *", "msg"); ("unsigned int", "vlen"); ("unsigned", "flags")];
   proto "sendmsg" "long" [("int", "fd"); ("struct user_msghdr *", "msg"); ("unsigned", "flags")];
   proto "sendto" "long" [("int", "sockfd"); ("void *", "buf"); ("size_t", "len"); ("unsigned", "flags"); ("struct sockaddr *", "dest_addr"); ("int", "addrlen")];
   proto "set_mempolicy" "long" [("int", "mode"); ("const unsigned long *", "nmask"); ("unsigned long", "maxnode")];
   proto "set_robust_list" "long" [("struct robust_list_head *", "head"); ("size_t", "len")];
   proto "set_tid_address" "long" [("int *", "tidptr")];
   proto "setdomainname" "long" [("char *", "name"); ("int", "len")];
   proto "setfsgid" "long" [("gid_t", "gid")];
   proto "setfsgid16" "long" [("old_gid_t", "gid")];
   proto "setfsuid" "long" [("uid_t", "uid")];
   proto "setfsuid16" "long" [("old_uid_t", "uid")];
   proto "setgid" "long" [("gid_t", "gid")];
   proto "setgid16" "long" [("old_gid_t", "gid")];
   proto "setgroups" "long" [("int", "gidsetsize"); ("gid_t *", "grouplist")];
   proto "setgroups16" "long" [("int", "gidsetsize"); ("old_gid_t *", "grouplist")];
   proto "sethostname" "long" [("char *", "name"); ("int", "len")];
   proto "setitimer" "long" [("int", "which"); ("struct itimerval *", "value"); ("struct itimerval *", "ovalue")];
   proto "setns" "long" [("int", "fd"); ("int", "nstype")];
   proto "setpgid" "long" [("pid_t", "pid"); ("pid_t", "pgid")];
   proto "setpriority" "long" [("int", "which"); ("int", "who"); ("int", "niceval")];
   proto "setregid" "long" [("gid_t", "rgid"); ("gid_t", "egid")];
   proto "setregid16" "long" [("old_gid_t", "rgid"); ("old_gid_t", "egid")];
   proto "setresgid" "long" [("gid_t", "rgid"); ("gid_t", "egid"); ("gid_t", "sgid")]]%string.
Definition prototypes_6 : list (text * (text * list (text * text))) :=
  [proto "setresgid16" "long" [("old_gid_t", "rgid"); ("old_gid_t", "egid"); ("old_gid_t", "sgid")];
   proto "setresuid" "long" [("uid_t", "ruid"); ("uid_t", "euid"); ("uid_t", "suid")];
   proto "setresuid16" "long" [("old_uid_t", "ruid"); ("old_uid_t", "euid"); ("old_uid_t", "suid")];
   proto "setreuid" "long" [("uid_t", "ruid"); ("uid_t", "euid")];
   proto "setreuid16" "long" [("old_uid_t", "ruid"); ("old_uid_t", "euid")];
   proto "setrlimit" "long" [("unsigned int", "resource"); ("struct rlimit *", "rlim")];
   proto "setsid" "long" [];
   proto "setsockopt" "long" [("int", "fd"); ("int", "level"); ("int", "optname"); ("char *", "optval"); ("int", "optlen")];
   proto "settimeofday" "long" [("struct timeval *", "tv"); ("struct timezone *", "tz")];
   proto "setuid" "long" [("uid_t", "uid")];
   proto "setuid16" "long" [("old_uid_t", "uid")];
   proto "setxattr" "long" [("const char *", "path"); ("const char *", "name"); ("const void *", "value"); ("size_t", "size"); ("int", "flags")];
   proto "sgetmask" "long" [];
   proto "shmat" "long" [("int", "shmid"); ("char *", "shmaddr"); ("int", "shmflg")];
   proto "shmctl" "long" [("int", "shmid"); ("int", "cmd"); ("struct shmid_ds *", "buf")];
   proto "shmdt" "long" [("char *", "shmaddr")];
   proto "shmget" "long" [("key_t", "key"); ("size_t", "size"); ("int", "flag")];
   proto "shutdown" "long" [("int", "sockfd"); ("int", "how")];
   proto "sigaction" "long" [("int", "signum"); ("const struct old_sigaction *", "act"); ("struct old_sigaction *", "oldact")];
   proto "sigaltstack" "long" [("const struct sigaltstack *", "uss"); ("struct sigaltstack *", "uoss")];
   proto "signal" "long" [("int", "sig"); ("__sighandler_t", "handler")];
   proto "signalfd" "long" [("int", "ufd"); ("sigset_t *", "user_mask"); ("size_t", "sizemask")];
   proto "signalfd4" "long" [("int", "ufd"); ("sigset_t *", "user_mask"); ("size_t", "sizemask"); ("int", "flags")];
   proto "sigpending" "long" [("old_sigset_t *", "set")];
   proto "sigprocmask" "long" [("int", "how"); ("old_sigset_t *", "set"); ("old_sigset_t *", "oset")];
   proto "sigsuspend" "long" [("int", "unused1"); ("int", "unused2"); ("old_sigset_t", "mask")];
   proto "socket" "long" [("int", "domain"); ("int", "type"); ("int", "protocol")];
   proto "socketcall" "long" [("int", "call"); ("unsigned long *", "args")];
   proto "socketpair" "long" [("int", "domain"); ("int", "type"); ("int", "protocol"); ("int *", "sv")];
   proto "splice" "long" [("int", "fd_in"); ("loff_t *", "off_in"); ("int", "fd_out"); ("loff_t *", "off_out"); ("size_t", "len"); ("unsigned int", "flags")];
   proto "spu_create" "long" [("const char *", "name"); ("unsigned int", "flags"); ("umode_t", "mode"); ("int", "fd")];
   proto "spu_run" "long" [("int", "fd"); ("__u32 *", "unpc"); ("__u32 *", "ustatus")];
   proto "ssetmask" "long" [("int", "newmask")];
   proto "stat" "long" [("const char *", "filename"); ("struct __old_kernel_stat *", "statbuf")];
   proto "stat64" "long" [("const char *", "filename"); ("struct stat64 *", "statbuf")];
   proto "statfs" "long" [("const char *", "path"); ("struct statfs *", "buf")];
   proto "statfs64" "long" [("const char *", "path"); ("size_t", "sz"); ("struct statfs64 *", "buf")];
   proto "statx" "long" [("int", "dirfd"); ("const char *", "pathname"); ("int", "flags"); ("unsigned int", "mask"); ("struct statx *", "statxbuf")];
   proto "stime" "long" [("time_t *", "tptr")];
   proto "swapoff" "long" [("const char *", "specialfile")];
   proto "swapon" "long" [("const char *", "specialfile"); ("int", "swap_flags")];
   proto "symlink" "long" [("const char *", "old"); ("const char *", "new")];
   proto "symlinkat" "long" [("const char *", "oldname"); ("int", "newdfd"); ("const char *", "newname")];
   proto "sync" "long" [];
   proto "sync_file_range" "long" [("int", "fd"); ("loff_t", "offset"); ("loff_t", "nbytes"); ("unsigned int", "flags")];
   proto "sync_file_range2" "long" [("int", "fd"); ("unsigned int", "flags"); ("loff_t", "offset"); ("loff_t", "nbytes")];
   proto "syncfs" "long" [("int", "fd")];
   proto "sysctl" "long" [("struct __sysctl_args *", "args")]]%string.
Definition prototypes_7 : list (text * (text * list (text * text))) :=
  [proto "sysfs" "long" [("int", "option"); ("unsigned long", "arg1"); ("unsigned long", "arg2")];
   proto "sysinfo" "long" [("struct sysinfo *", "info")];
   proto "syslog" "long" [("int", "type"); ("char *", "buf"); ("int", "len")];
   proto "tee" "long" [("int", "fdin"); ("int", "fdout"); ("size_t", "len"); ("unsigned int", "flags")];
   proto "tgkill" "long" [("int", "tgid"); ("int", "pid"); ("int", "sig")];
   proto "time" "long" [("time_t *", "tloc")];
   proto "timer_create" "long" [("clockid_t", "which_clock"); ("struct sigevent *", "timer_event_spec"); ("timer_t *", "created_timer_id")];
   proto "timer_delete" "long" [("timer_t", "timer_id")];
   proto "timer_getoverrun" "long" [("timer_t", "timer_id")];
   proto "timer_gettime" "long" [("timer_t", "timer_id"); ("struct itimerspec *", "setting")];
   proto "timer_settime" "long" [("timer_t", "timer_id"); ("int", "flags"); ("const struct itimerspec *", "new_setting"); ("struct itimerspec *", "old_setting")];
   proto "timerfd_create" "long" [("int", "clockid"); ("int", "flags")];
   proto "timerfd_gettime" "long" [("int", "ufd"); ("struct itimerspec *", "otmr")];
   proto "timerfd_settime" "long" [("int", "ufd"); ("int", "flags"); ("const struct itimerspec *", "utmr"); ("struct itimerspec *", "otmr")];
   proto "times" "long" [("struct tms *", "tbuf")];
   proto "tkill" "long" [("int", "pid"); ("int", "sig")];
   proto "truncate" "long" [("const char *", "path"); ("long", "length")];
   proto "truncate64" "long" [("const char *", "path"); ("loff_t", "length")];
   proto "umask" "long" [("int", "mask")];
   proto "umount" "long" [("char *", "name"); ("int", "flags")];
   proto "uname" "long" [("struct old_utsname *", "buf")];
   proto "unlink" "long" [("const char *", "pathname")];
   proto "unlinkat" "long" [("int", "dfd"); ("const char *", "pathname"); ("int", "flag")];
   proto "unshare" "long" [("unsigned long", "unshare_flags")];
   proto "uselib" "long" [("const char *", "library")];
   proto "userfaultfd" "long" [("int", "flags")];
   proto "ustat" "long" [("unsigned", "dev"); ("struct ustat *", "ubuf")];
   proto "utime" "long" [("char *", "filename"); ("struct utimbuf *", "times")];
   proto "utimensat" "long" [("int", "dfd"); ("const char *", "filename"); ("struct timespec *", "utimes"); ("int", "flags")];
   proto "utimes" "long" [("char *", "filename"); ("struct timeval *", "utimes")];
   proto "vfork" "long" [];
   proto "vhangup" "long" [];
   proto "vmsplice" "long" [("int", "fd"); ("const struct iovec *", "iov"); ("unsigned long", "nr_segs"); ("unsigned int", "flags")];
   proto "wait4" "long" [("pid_t", "pid"); ("int *", "stat_addr"); ("int", "options"); ("struct rusage *", "ru")];
   proto "waitid" "long" [("int", "which"); ("pid_t", "pid"); ("struct siginfo *", "infop"); ("int", "options"); ("struct rusage *", "ru")];
   proto "waitpid" "long" [("pid_t", "pid"); ("int *", "stat_addr"); ("int", "options")];
   proto "write" "long" [("unsigned int", "fd"); ("const char *", "buf"); ("size_t", "count")];
   proto "writev" "long" [("unsigned long", "fd"); ("const struct iovec *", "vec"); ("unsigned long", "vlen")]]%string.
Definition BASE_PROTOTYPES : list (text * (text * list (text * text))) :=
  prototypes_0 ++ prototypes_1 ++ prototypes_2 ++ prototypes_3 ++ prototypes_4 ++ prototypes_5 ++ prototypes_6 ++ prototypes_7.
(** ptrace/syscall/prototypes.py 1769-1772: the aliases are copies of the original entry *)
Definition SYSCALL_PROTOTYPES : list (text * (text * list (text * text))) :=
  fold_left (fun protos alias =>
      match dget text_eqb (fst alias) protos with
      | Some orig => fold_left (fun protos copy => dset text_eqb copy orig protos) (snd alias) protos
      | None => protos   (* KeyError at import; does not happen: TabProps *)
      end) ALIASES BASE_PROTOTYPES.

(** ptrace/syscall/linux/x86_64.py 2-391 *)
Definition x86_64_names_0 : list (Z * text) :=
  [number 0 "read"; number 1 "write"; number 2 "open"; number 3 "close"; number 4 "stat"; number 5 "fstat";
   number 6 "lstat"; number 7 "poll"; number 8 "lseek"; number 9 "mmap"; number 10 "mprotect"; number 11 "munmap";
   number 12 "brk"; number 13 "rt_sigaction"; number 14 "rt_sigprocmask"; number 15 "rt_sigreturn";
   number 16 "ioctl"; number 17 "pread64"; number 18 "pwrite64"; number 19 "readv"; number 20 "writev";
   number 21 "access"; number 22 "pipe"; number 23 "select"; number 24 "sched_yield"; number 25 "mremap";
   number 26 "msync"; number 27 "mincore"; number 28 "madvise"; number 29 "shmget"; number 30 "shmat";
   number 31 "shmctl"; number 32 "dup"; number 33 "dup2"; number 34 "pause"; number 35 "nanosleep";
   number 36 "getitimer"; number 37 "alarm"; number 38 "setitimer"; number 39 "getpid"; number 40 "sendfile";
   number 41 "socket"; number 42 "connect"; number 43 "accept"; number 44 "sendto"; number 45 "recvfrom";
   number 46 "sendmsg"; number 47 "recvmsg"; number 48 "shutdown"; number 49 "bind"; number 50 "listen";
   number 51 "getsockname"; number 52 "getpeername"; number 53 "socketpair"; number 54 "setsockopt";
   number 55 "getsockopt"; number 56 "clone"; number 57 "fork"; number 58 "vfork"; number 59 "execve"]%string.
Definition x86_64_names_1 : list (Z * text) :=
  [number 60 "exit"; number 61 "wait4"; number 62 "kill"; number 63 "uname"; number 64 "semget"; number 65 "semop";
   number 66 "semctl"; number 67 "shmdt"; number 68 "msgget"; number 69 "msgsnd"; number 70 "msgrcv";
   number 71 "msgctl"; number 72 "fcntl"; number 73 "flock"; number 74 "fsync"; number 75 "fdatasync";
   number 76 "truncate"; number 77 "ftruncate"; number 78 "getdents"; number 79 "getcwd"; number 80 "chdir";
   number 81 "fchdir"; number 82 "rename"; number 83 "mkdir"; number 84 "rmdir"; number 85 "creat"; number 86 "link";
   number 87 "unlink"; number 88 "symlink"; number 89 "readlink"; number 90 "chmod"; number 91 "fchmod";
   number 92 "chown"; number 93 "fchown"; number 94 "lchown"; number 95 "umask"; number 96 "gettimeofday";
   number 97 "getrlimit"; number 98 "getrusage"; number 99 "sysinfo"; number 100 "times"; number 101 "ptrace";
   number 102 "getuid"; number 103 "syslog"; number 104 "getgid"; number 105 "setuid"; number 106 "setgid";
   number 107 "geteuid"; number 108 "getegid"; number 109 "setpgid"; number 110 "getppid"; number 111 "getpgrp";
   number 112 "setsid"; number 113 "setreuid"; number 114 "setregid"; number 115 "getgroups"; number 116 "setgroups";
   number 117 "setresuid"; number 118 "getresuid"; number 119 "setresgid"]%string.
Definition x86_64_names_2 : list (Z * text) :=
  [number 120 "getresgid"; number 121 "getpgid"; number 122 "setfsuid"; number 123 "setfsgid"; number 124 "getsid";
   number 125 "capget"; number 126 "capset"; number 127 "rt_sigpending"; number 128 "rt_sigtimedwait";
   number 129 "rt_sigqueueinfo"; number 130 "rt_sigsuspend"; number 131 "sigaltstack"; number 132 "utime";
   number 133 "mknod"; number 134 "uselib"; number 135 "personality"; number 136 "ustat"; number 137 "statfs";
   number 138 "fstatfs"; number 139 "sysfs"; number 140 "getpriority"; number 141 "setpriority";
   number 142 "sched_setparam"; number 143 "sched_getparam"; number 144 "sched_setscheduler";
   number 145 "sched_getscheduler"; number 146 "sched_get_priority_max"; number 147 "sched_get_priority_min";
   number 148 "sched_rr_get_interval"; number 149 "mlock"; number 150 "munlock"; number 151 "mlockall";
   number 152 "munlockall"; number 153 "vhangup"; number 154 "modify_ldt"; number 155 "pivot_root";
   number 156 "_sysctl"; number 157 "prctl"; number 158 "arch_prctl"; number 159 "adjtimex"; number 160 "setrlimit";
   number 161 "chroot"; number 162 "sync"; number 163 "acct"; number 164 "settimeofday"; number 165 "mount";
   number 166 "umount2"; number 167 "swapon"; number 168 "swapoff"; number 169 "reboot"; number 170 "sethostname";
   number 171 "setdomainname"; number 172 "iopl"; number 173 "ioperm"; number 174 "create_module";
   number 175 "init_module"; number 176 "delete_module"; number 177 "get_kernel_syms"; number 178 "query_module";
   number 179 "quotactl"]%string.
Definition x86_64_names_3 : list (Z * text) :=
  [number 180 "nfsservctl"; number 181 "getpmsg"; number 182 "putpmsg"; number 183 "afs_syscall";
   number 184 "tuxcall"; number 185 "security"; number 186 "gettid"; number 187 "readahead"; number 188 "setxattr";
   number 189 "lsetxattr"; number 190 "fsetxattr"; number 191 "getxattr"; number 192 "lgetxattr";
   number 193 "fgetxattr"; number 194 "listxattr"; number 195 "llistxattr"; number 196 "flistxattr";
   number 197 "removexattr"; number 198 "lremovexattr"; number 199 "fremovexattr"; number 200 "tkill";
   number 201 "time"; number 202 "futex"; number 203 "sched_setaffinity"; number 204 "sched_getaffinity";
   number 205 "set_thread_area"; number 206 "io_setup"; number 207 "io_destroy"; number 208 "io_getevents";
   number 209 "io_submit"; number 210 "io_cancel"; number 211 "get_thread_area"; number 212 "lookup_dcookie";
   number 213 "epoll_create"; number 214 "epoll_ctl_old"; number 215 "epoll_wait_old"; number 216 "remap_file_pages";
   number 217 "getdents64"; number 218 "set_tid_address"; number 219 "restart_syscall"; number 220 "semtimedop";
   number 221 "fadvise64"; number 222 "timer_create"; number 223 "timer_settime"; number 224 "timer_gettime";
   number 225 "timer_getoverrun"; number 226 "timer_delete"; number 227 "clock_settime"; number 228 "clock_gettime";
   number 229 "clock_getres"; number 230 "clock_nanosleep"; number 231 "exit_group"; number 232 "epoll_wait";
   number 233 "epoll_ctl"; number 234 "tgkill"; number 235 "utimes"; number 236 "vserver"; number 237 "mbind";
   number 238 "set_mempolicy"; number 239 "get_mempolicy"]%string.
Definition x86_64_names_4 : list (Z * text) :=
  [number 240 "mq_open"; number 241 "mq_unlink"; number 242 "mq_timedsend"; number 243 "mq_timedreceive";
   number 244 "mq_notify"; number 245 "mq_getsetattr"; number 246 "kexec_load"; number 247 "waitid";
   number 248 "add_key"; number 249 "request_key"; number 250 "keyctl"; number 251 "ioprio_set";
   number 252 "ioprio_get"; number 253 "inotify_init"; number 254 "inotify_add_watch"; number 255 "inotify_rm_watch";
   number 256 "migrate_pages"; number 257 "openat"; number 258 "mkdirat"; number 259 "mknodat";
   number 260 "fchownat"; number 261 "futimesat"; number 262 "newfstatat"; number 263 "unlinkat";
   number 264 "renameat"; number 265 "linkat"; number 266 "symlinkat"; number 267 "readlinkat";
   number 268 "fchmodat"; number 269 "faccessat"; number 270 "pselect6"; number 271 "ppoll"; number 272 "unshare";
   number 273 "set_robust_list"; number 274 "get_robust_list"; number 275 "splice"; number 276 "tee";
   number 277 "sync_file_range"; number 278 "vmsplice"; number 279 "move_pages"; number 280 "utimensat";
   number 281 "epoll_pwait"; number 282 "signalfd"; number 283 "timerfd"; number 284 "eventfd";
   number 285 "fallocate"; number 286 "timerfd_settime"; number 287 "timerfd_gettime"; number 288 "accept4";
   number 289 "signalfd4"; number 290 "eventfd2"; number 291 "epoll_create1"; number 292 "dup3"; number 293 "pipe2";
   number 294 "inotify_init1"; number 295 "preadv"; number 296 "pwritev"; number 297 "rt_tgsigqueueinfo";
   number 298 "perf_event_open"; number 299 "recvmmsg"]%string.
Definition x86_64_names_5 : list (Z * text) :=
  [number 300 "fanotify_init"; number 301 "fanotify_mark"; number 302 "prlimit64"; number 303 "name_to_handle_at";
   number 304 "open_by_handle_at"; number 305 "clock_adjtime"; number 306 "syncfs"; number 307 "sendmmsg";
   number 308 "setns"; number 309 "getcpu"; number 310 "process_vm_readv"; number 311 "process_vm_writev";
   number 312 "kcmp"; number 313 "finit_module"; number 314 "sched_setattr"; number 315 "sched_getattr";
   number 316 "renameat2"; number 317 "seccomp"; number 318 "getrandom"; number 319 "memfd_create";
   number 320 "kexec_file_load"; number 321 "bpf"; number 322 "execveat"; number 323 "userfaultfd";
   number 324 "membarrier"; number 325 "mlock2"; number 326 "copy_file_range"; number 327 "preadv2";
   number 328 "pwritev2"; number 329 "pkey_mprotect"; number 330 "pkey_alloc"; number 331 "pkey_free";
   number 332 "statx"; number 333 "io_pgetevents"; number 334 "rseq"; number 424 "pidfd_send_signal";
   number 425 "io_uring_setup"; number 426 "io_uring_enter"; number 427 "io_uring_register"; number 428 "open_tree";
   number 429 "move_mount"; number 430 "fsopen"; number 431 "fsconfig"; number 432 "fsmount"; number 433 "fspick";
   number 434 "pidfd_open"; number 435 "clone3"; number 436 "close_range"; number 437 "openat2";
   number 438 "pidfd_getfd"; number 439 "faccessat2"; number 440 "process_madvise"; number 512 "rt_sigaction";
   number 513 "rt_sigreturn"; number 514 "ioctl"; number 515 "readv"; number 516 "writev"; number 517 "recvfrom";
   number 518 "sendmsg"; number 519 "recvmsg"]%string.
Definition x86_64_names_6 : list (Z * text) :=
  [number 520 "execve"; number 521 "ptrace"; number 522 "rt_sigpending"; number 523 "rt_sigtimedwait";
   number 524 "rt_sigqueueinfo"; number 525 "sigaltstack"; number 526 "timer_create"; number 527 "mq_notify";
   number 528 "kexec_load"; number 529 "waitid"; number 530 "set_robust_list"; number 531 "get_robust_list";
   number 532 "vmsplice"; number 533 "move_pages"; number 534 "preadv"; number 535 "pwritev";
   number 536 "rt_tgsigqueueinfo"; number 537 "recvmmsg"; number 538 "sendmmsg"; number 539 "process_vm_readv";
   number 540 "process_vm_writev"; number 541 "setsockopt"; number 542 "getsockopt"; number 543 "io_setup";
   number 544 "io_submit"; number 545 "execveat"; number 546 "preadv2"; number 547 "pwritev2"]%string.
Definition x86_64_names : list (Z * text) := x86_64_names_0 ++ x86_64_names_1 ++ x86_64_names_2 ++ x86_64_names_3 ++ x86_64_names_4 ++ x86_64_names_5 ++ x86_64_names_6.
(** ptrace/syscall/linux/x86_64.py 393-399 *)
Definition x86_64_socket_names : list text :=
  [T "socket"; T "socketpair"; T "connect"; T "sendto"; T "recvfrom"; T "sendmsg"; T "recvmsg"; T "bind"; T "listen"; T "accept"; T "getsockname"; T "getpeername"; T "getsockopt"; T "setsockopt"; T "shutdown"].
(** ptrace/syscall/linux/i386.py 5-327 *)
Definition i386_names_0 : list (Z * text) :=
  [number 0 "restart_syscall"; number 1 "exit"; number 2 "fork"; number 3 "read"; number 4 "write"; number 5 "open";
   number 6 "close"; number 7 "waitpid"; number 8 "creat"; number 9 "link"; number 10 "unlink"; number 11 "execve";
   number 12 "chdir"; number 13 "time"; number 14 "mknod"; number 15 "chmod"; number 16 "lchown16"; number 18 "stat";
   number 19 "lseek"; number 20 "getpid"; number 21 "mount"; number 22 "oldumount"; number 23 "setuid16";
   number 24 "getuid16"; number 25 "stime"; number 26 "ptrace"; number 27 "alarm"; number 28 "fstat";
   number 29 "pause"; number 30 "utime"; number 33 "access"; number 34 "nice"; number 36 "sync"; number 37 "kill";
   number 38 "rename"; number 39 "mkdir"; number 40 "rmdir"; number 41 "dup"; number 42 "pipe"; number 43 "times";
   number 45 "brk"; number 46 "setgid16"; number 47 "getgid16"; number 48 "signal"; number 49 "geteuid16";
   number 50 "getegid16"; number 51 "acct"; number 52 "umount"; number 54 "ioctl"; number 55 "fcntl";
   number 57 "setpgid"; number 59 "oldolduname"; number 60 "umask"; number 61 "chroot"; number 62 "ustat";
   number 63 "dup2"; number 64 "getppid"; number 65 "getpgrp"; number 66 "setsid"; number 67 "sigaction"]%string.
Definition i386_names_1 : list (Z * text) :=
  [number 68 "sgetmask"; number 69 "ssetmask"; number 70 "setreuid16"; number 71 "setregid16";
   number 72 "sigsuspend"; number 73 "sigpending"; number 74 "sethostname"; number 75 "setrlimit";
   number 76 "old_getrlimit"; number 77 "getrusage"; number 78 "gettimeofday"; number 79 "settimeofday";
   number 80 "getgroups16"; number 81 "setgroups16"; number 82 "old_select"; number 83 "symlink"; number 84 "lstat";
   number 85 "readlink"; number 86 "uselib"; number 87 "swapon"; number 88 "reboot"; number 89 "old_readdir";
   number 90 "old_mmap"; number 91 "munmap"; number 92 "truncate"; number 93 "ftruncate"; number 94 "fchmod";
   number 95 "fchown16"; number 96 "getpriority"; number 97 "setpriority"; number 99 "statfs"; number 100 "fstatfs";
   number 101 "ioperm"; number 102 "socketcall"; number 103 "syslog"; number 104 "setitimer"; number 105 "getitimer";
   number 106 "newstat"; number 107 "newlstat"; number 108 "newfstat"; number 109 "olduname"; number 110 "iopl";
   number 111 "vhangup"; number 113 "vm86old"; number 114 "wait4"; number 115 "swapoff"; number 116 "sysinfo";
   number 117 "ipc"; number 118 "fsync"; number 119 "sigreturn"; number 120 "clone"; number 121 "setdomainname";
   number 122 "uname"; number 123 "modify_ldt"; number 124 "adjtimex"; number 125 "mprotect";
   number 126 "sigprocmask"; number 128 "init_module"; number 129 "delete_module"; number 131 "quotactl"]%string.
Definition i386_names_2 : list (Z * text) :=
  [number 132 "getpgid"; number 133 "fchdir"; number 134 "bdflush"; number 135 "sysfs"; number 136 "personality";
   number 138 "setfsuid16"; number 139 "setfsgid16"; number 140 "llseek"; number 141 "getdents"; number 142 "select";
   number 143 "flock"; number 144 "msync"; number 145 "readv"; number 146 "writev"; number 147 "getsid";
   number 148 "fdatasync"; number 149 "sysctl"; number 150 "mlock"; number 151 "munlock"; number 152 "mlockall";
   number 153 "munlockall"; number 154 "sched_setparam"; number 155 "sched_getparam";
   number 156 "sched_setscheduler"; number 157 "sched_getscheduler"; number 158 "sched_yield";
   number 159 "sched_get_priority_max"; number 160 "sched_get_priority_min"; number 161 "sched_rr_get_interval";
   number 162 "nanosleep"; number 163 "mremap"; number 164 "setresuid16"; number 165 "getresuid16";
   number 166 "vm86"; number 168 "poll"; number 169 "nfsservctl"; number 170 "setresgid16"; number 171 "getresgid16";
   number 172 "prctl"; number 173 "rt_sigreturn"; number 174 "rt_sigaction"; number 175 "rt_sigprocmask";
   number 176 "rt_sigpending"; number 177 "rt_sigtimedwait"; number 178 "rt_sigqueueinfo";
   number 179 "rt_sigsuspend"; number 180 "pread64"; number 181 "pwrite64"; number 182 "chown16";
   number 183 "getcwd"; number 184 "capget"; number 185 "capset"; number 186 "sigaltstack"; number 187 "sendfile";
   number 190 "vfork"; number 191 "getrlimit"; number 192 "mmap2"; number 193 "truncate64"; number 194 "ftruncate64";
   number 195 "stat64"]%string.
Definition i386_names_3 : list (Z * text) :=
  [number 196 "lstat64"; number 197 "fstat64"; number 198 "lchown"; number 199 "getuid"; number 200 "getgid";
   number 201 "geteuid"; number 202 "getegid"; number 203 "setreuid"; number 204 "setregid"; number 205 "getgroups";
   number 206 "setgroups"; number 207 "fchown"; number 208 "setresuid"; number 209 "getresuid";
   number 210 "setresgid"; number 211 "getresgid"; number 212 "chown"; number 213 "setuid"; number 214 "setgid";
   number 215 "setfsuid"; number 216 "setfsgid"; number 217 "pivot_root"; number 218 "mincore"; number 219 "madvise";
   number 220 "getdents64"; number 221 "fcntl64"; number 224 "gettid"; number 225 "readahead"; number 226 "setxattr";
   number 227 "lsetxattr"; number 228 "fsetxattr"; number 229 "getxattr"; number 230 "lgetxattr";
   number 231 "fgetxattr"; number 232 "listxattr"; number 233 "llistxattr"; number 234 "flistxattr";
   number 235 "removexattr"; number 236 "lremovexattr"; number 237 "fremovexattr"; number 238 "tkill";
   number 239 "sendfile64"; number 240 "futex"; number 241 "sched_setaffinity"; number 242 "sched_getaffinity";
   number 243 "set_thread_area"; number 244 "get_thread_area"; number 245 "io_setup"; number 246 "io_destroy";
   number 247 "io_getevents"; number 248 "io_submit"; number 249 "io_cancel"; number 250 "fadvise64";
   number 252 "exit_group"; number 253 "lookup_dcookie"; number 254 "epoll_create"; number 255 "epoll_ctl";
   number 256 "epoll_wait"; number 257 "remap_file_pages"; number 258 "set_tid_address"]%string.
Definition i386_names_4 : list (Z * text) :=
  [number 259 "timer_create"; number 260 "timer_settime"; number 261 "timer_gettime"; number 262 "timer_getoverrun";
   number 263 "timer_delete"; number 264 "clock_settime"; number 265 "clock_gettime"; number 266 "clock_getres";
   number 267 "clock_nanosleep"; number 268 "statfs64"; number 269 "fstatfs64"; number 270 "tgkill";
   number 271 "utimes"; number 272 "fadvise64_64"; number 274 "mbind"; number 275 "get_mempolicy";
   number 276 "set_mempolicy"; number 277 "mq_open"; number 278 "mq_unlink"; number 279 "mq_timedsend";
   number 280 "mq_timedreceive"; number 281 "mq_notify"; number 282 "mq_getsetattr"; number 283 "kexec_load";
   number 284 "waitid"; number 286 "add_key"; number 287 "request_key"; number 288 "keyctl"; number 289 "ioprio_set";
   number 290 "ioprio_get"; number 291 "inotify_init"; number 292 "inotify_add_watch"; number 293 "inotify_rm_watch";
   number 294 "migrate_pages"; number 295 "openat"; number 296 "mkdirat"; number 297 "mknodat";
   number 298 "fchownat"; number 299 "futimesat"; number 300 "fstatat64"; number 301 "unlinkat";
   number 302 "renameat"; number 303 "linkat"; number 304 "symlinkat"; number 305 "readlinkat";
   number 306 "fchmodat"; number 307 "faccessat"; number 308 "pselect6"; number 309 "ppoll"; number 310 "unshare";
   number 311 "set_robust_list"; number 312 "get_robust_list"; number 313 "splice"; number 314 "sync_file_range";
   number 315 "tee"; number 316 "vmsplice"; number 317 "move_pages"; number 318 "getcpu"; number 319 "epoll_pwait"]%string.
Definition i386_names : list (Z * text) := i386_names_0 ++ i386_names_1 ++ i386_names_2 ++ i386_names_3 ++ i386_names_4.
(** ptrace/syscall/linux/i386.py 329-329 *)
Definition i386_socket_names : list text :=
  [T "socketcall"].
(** ptrace/syscall/linux/powerpc64.py 3-393 *)
Definition powerpc64_names_0 : list (Z * text) :=
  [number 0 "restart_syscall"; number 1 "exit"; number 2 "fork"; number 3 "read"; number 4 "write"; number 5 "open";
   number 6 "close"; number 7 "waitpid"; number 8 "creat"; number 9 "link"; number 10 "unlink"; number 11 "execve";
   number 12 "chdir"; number 13 "time"; number 14 "mknod"; number 15 "chmod"; number 16 "lchown"; number 17 "break";
   number 18 "oldstat"; number 19 "lseek"; number 20 "getpid"; number 21 "mount"; number 22 "umount";
   number 23 "setuid"; number 24 "getuid"; number 25 "stime"; number 26 "ptrace"; number 27 "alarm";
   number 28 "oldfstat"; number 29 "pause"; number 30 "utime"; number 31 "stty"; number 32 "gtty";
   number 33 "access"; number 34 "nice"; number 35 "ftime"; number 36 "sync"; number 37 "kill"; number 38 "rename";
   number 39 "mkdir"; number 40 "rmdir"; number 41 "dup"; number 42 "pipe"; number 43 "times"; number 44 "prof";
   number 45 "brk"; number 46 "setgid"; number 47 "getgid"; number 48 "signal"; number 49 "geteuid";
   number 50 "getegid"; number 51 "acct"; number 52 "umount2"; number 53 "lock"; number 54 "ioctl";
   number 55 "fcntl"; number 56 "mpx"; number 57 "setpgid"; number 58 "ulimit"; number 59 "oldolduname"]%string.
Definition powerpc64_names_1 : list (Z * text) :=
  [number 60 "umask"; number 61 "chroot"; number 62 "ustat"; number 63 "dup2"; number 64 "getppid";
   number 65 "getpgrp"; number 66 "setsid"; number 67 "sigaction"; number 68 "sgetmask"; number 69 "ssetmask";
   number 70 "setreuid"; number 71 "setregid"; number 72 "sigsuspend"; number 73 "sigpending";
   number 74 "sethostname"; number 75 "setrlimit"; number 76 "getrlimit"; number 77 "getrusage";
   number 78 "gettimeofday"; number 79 "settimeofday"; number 80 "getgroups"; number 81 "setgroups";
   number 82 "select"; number 83 "symlink"; number 84 "oldlstat"; number 85 "readlink"; number 86 "uselib";
   number 87 "swapon"; number 88 "reboot"; number 89 "readdir"; number 90 "mmap"; number 91 "munmap";
   number 92 "truncate"; number 93 "ftruncate"; number 94 "fchmod"; number 95 "fchown"; number 96 "getpriority";
   number 97 "setpriority"; number 98 "profil"; number 99 "statfs"; number 100 "fstatfs"; number 101 "ioperm";
   number 102 "socketcall"; number 103 "syslog"; number 104 "setitimer"; number 105 "getitimer"; number 106 "stat";
   number 107 "lstat"; number 108 "fstat"; number 109 "olduname"; number 110 "iopl"; number 111 "vhangup";
   number 112 "idle"; number 113 "vm86"; number 114 "wait4"; number 115 "swapoff"; number 116 "sysinfo";
   number 117 "ipc"; number 118 "fsync"; number 119 "sigreturn"]%string.
Definition powerpc64_names_2 : list (Z * text) :=
  [number 120 "clone"; number 121 "setdomainname"; number 122 "uname"; number 123 "modify_ldt";
   number 124 "adjtimex"; number 125 "mprotect"; number 126 "sigprocmask"; number 127 "create_module";
   number 128 "init_module"; number 129 "delete_module"; number 130 "get_kernel_syms"; number 131 "quotactl";
   number 132 "getpgid"; number 133 "fchdir"; number 134 "bdflush"; number 135 "sysfs"; number 136 "personality";
   number 137 "afs_syscall"; number 138 "setfsuid"; number 139 "setfsgid"; number 140 "_llseek";
   number 141 "getdents"; number 142 "_newselect"; number 143 "flock"; number 144 "msync"; number 145 "readv";
   number 146 "writev"; number 147 "getsid"; number 148 "fdatasync"; number 149 "_sysctl"; number 150 "mlock";
   number 151 "munlock"; number 152 "mlockall"; number 153 "munlockall"; number 154 "sched_setparam";
   number 155 "sched_getparam"; number 156 "sched_setscheduler"; number 157 "sched_getscheduler";
   number 158 "sched_yield"; number 159 "sched_get_priority_max"; number 160 "sched_get_priority_min";
   number 161 "sched_rr_get_interval"; number 162 "nanosleep"; number 163 "mremap"; number 164 "setresuid";
   number 165 "getresuid"; number 166 "query_module"; number 167 "poll"; number 168 "nfsservctl";
   number 169 "setresgid"; number 170 "getresgid"; number 171 "prctl"; number 172 "rt_sigreturn";
   number 173 "rt_sigaction"; number 174 "rt_sigprocmask"; number 175 "rt_sigpending"; number 176 "rt_sigtimedwait";
   number 177 "rt_sigqueueinfo"; number 178 "rt_sigsuspend"; number 179 "pread64"]%string.
Definition powerpc64_names_3 : list (Z * text) :=
  [number 180 "pwrite64"; number 181 "chown"; number 182 "getcwd"; number 183 "capget"; number 184 "capset";
   number 185 "sigaltstack"; number 186 "sendfile"; number 187 "getpmsg"; number 188 "putpmsg"; number 189 "vfork";
   number 190 "ugetrlimit"; number 191 "readahead"; number 198 "pciconfig_read"; number 199 "pciconfig_write";
   number 200 "pciconfig_iobase"; number 201 "multiplexer"; number 202 "getdents64"; number 203 "pivot_root";
   number 205 "madvise"; number 206 "mincore"; number 207 "gettid"; number 208 "tkill"; number 209 "setxattr";
   number 210 "lsetxattr"; number 211 "fsetxattr"; number 212 "getxattr"; number 213 "lgetxattr";
   number 214 "fgetxattr"; number 215 "listxattr"; number 216 "llistxattr"; number 217 "flistxattr";
   number 218 "removexattr"; number 219 "lremovexattr"; number 220 "fremovexattr"; number 221 "futex";
   number 222 "sched_setaffinity"; number 223 "sched_getaffinity"; number 225 "tuxcall"; number 227 "io_setup";
   number 228 "io_destroy"; number 229 "io_getevents"; number 230 "io_submit"; number 231 "io_cancel";
   number 232 "set_tid_address"; number 233 "fadvise64"; number 234 "exit_group"; number 235 "lookup_dcookie";
   number 236 "epoll_create"; number 237 "epoll_ctl"; number 238 "epoll_wait"; number 239 "remap_file_pages";
   number 240 "timer_create"; number 241 "timer_settime"; number 242 "timer_gettime"; number 243 "timer_getoverrun";
   number 244 "timer_delete"; number 245 "clock_settime"; number 246 "clock_gettime"; number 247 "clock_getres";
   number 248 "clock_nanosleep"]%string.
Definition powerpc64_names_4 : list (Z * text) :=
  [number 249 "swapcontext"; number 250 "tgkill"; number 251 "utimes"; number 252 "statfs64"; number 253 "fstatfs64";
   number 255 "rtas"; number 256 "sys_debug_setcontext"; number 258 "migrate_pages"; number 259 "mbind";
   number 260 "get_mempolicy"; number 261 "set_mempolicy"; number 262 "mq_open"; number 263 "mq_unlink";
   number 264 "mq_timedsend"; number 265 "mq_timedreceive"; number 266 "mq_notify"; number 267 "mq_getsetattr";
   number 268 "kexec_load"; number 269 "add_key"; number 270 "request_key"; number 271 "keyctl"; number 272 "waitid";
   number 273 "ioprio_set"; number 274 "ioprio_get"; number 275 "inotify_init"; number 276 "inotify_add_watch";
   number 277 "inotify_rm_watch"; number 280 "pselect6"; number 281 "ppoll"; number 282 "unshare";
   number 283 "splice"; number 284 "tee"; number 285 "vmsplice"; number 286 "openat"; number 287 "mkdirat";
   number 288 "mknodat"; number 289 "fchownat"; number 290 "futimesat"; number 291 "newfstatat";
   number 292 "unlinkat"; number 293 "renameat"; number 294 "linkat"; number 295 "symlinkat";
   number 296 "readlinkat"; number 297 "fchmodat"; number 298 "faccessat"; number 299 "get_robust_list";
   number 300 "set_robust_list"; number 301 "move_pages"; number 302 "getcpu"; number 303 "epoll_pwait";
   number 304 "utimensat"; number 305 "signalfd"; number 306 "timerfd_create"; number 307 "eventfd";
   number 308 "sync_file_range2"; number 309 "fallocate"; number 310 "subpage_prot"; number 311 "timerfd_settime";
   number 312 "timerfd_gettime"]%string.
Definition powerpc64_names_5 : list (Z * text) :=
  [number 313 "signalfd4"; number 314 "eventfd2"; number 315 "epoll_create1"; number 316 "dup3"; number 317 "pipe2";
   number 318 "inotify_init1"; number 319 "perf_event_open"; number 320 "preadv"; number 321 "pwritev";
   number 322 "rt_tgsigqueueinfo"; number 323 "fanotify_init"; number 324 "fanotify_mark"; number 325 "prlimit64";
   number 326 "socket"; number 327 "bind"; number 328 "connect"; number 329 "listen"; number 330 "accept";
   number 331 "getsockname"; number 332 "getpeername"; number 333 "socketpair"; number 334 "send";
   number 335 "sendto"; number 336 "recv"; number 337 "recvfrom"; number 338 "shutdown"; number 339 "setsockopt";
   number 340 "getsockopt"; number 341 "sendmsg"; number 342 "recvmsg"; number 343 "recvmmsg"; number 344 "accept4";
   number 345 "name_to_handle_at"; number 346 "open_by_handle_at"; number 347 "clock_adjtime"; number 348 "syncfs";
   number 349 "sendmmsg"; number 350 "setns"; number 351 "process_vm_readv"; number 352 "process_vm_writev";
   number 353 "finit_module"; number 354 "kcmp"; number 355 "sched_setattr"; number 356 "sched_getattr";
   number 357 "renameat2"; number 358 "seccomp"; number 359 "getrandom"; number 360 "memfd_create"; number 361 "bpf";
   number 362 "execveat"; number 363 "switch_endian"; number 364 "userfaultfd"; number 365 "membarrier";
   number 378 "mlock2"; number 379 "copy_file_range"; number 380 "preadv2"; number 381 "pwritev2";
   number 382 "kexec_file_load"; number 383 "statx"; number 384 "pkey_alloc"]%string.
Definition powerpc64_names_6 : list (Z * text) :=
  [number 385 "pkey_free"; number 386 "pkey_mprotect"; number 387 "rseq"; number 388 "io_pgetevents";
   number 392 "semtimedop"; number 393 "semget"; number 394 "semctl"; number 395 "shmget"; number 396 "shmctl";
   number 397 "shmat"; number 398 "shmdt"; number 399 "msgget"; number 400 "msgsnd"; number 401 "msgrcv";
   number 402 "msgctl"; number 424 "pidfd_send_signal"; number 425 "io_uring_setup"; number 426 "io_uring_enter";
   number 427 "io_uring_register"; number 428 "open_tree"; number 429 "move_mount"; number 430 "fsopen";
   number 431 "fsconfig"; number 432 "fsmount"; number 433 "fspick"; number 434 "pidfd_open"; number 435 "clone3";
   number 437 "openat2"; number 438 "pidfd_getfd"]%string.
Definition powerpc64_names : list (Z * text) := powerpc64_names_0 ++ powerpc64_names_1 ++ powerpc64_names_2 ++ powerpc64_names_3 ++ powerpc64_names_4 ++ powerpc64_names_5 ++ powerpc64_names_6.
(** ptrace/syscall/linux/powerpc64.py 395-411 *)
Definition powerpc64_socket_names : list text :=
  [T "socket"; T "socketpair"; T "connect"; T "sendto"; T "recvfrom"; T "sendmsg"; T "recvmsg"; T "bind"; T "listen"; T "accept"; T "getsockname"; T "getpeername"; T "getsockopt"; T "setsockopt"; T "shutdown"].
(** ptrace/syscall/linux/powerpc32.py 3-421 *)
Definition powerpc32_names_0 : list (Z * text) :=
  [number 0 "restart_syscall"; number 1 "exit"; number 2 "fork"; number 3 "read"; number 4 "write"; number 5 "open";
   number 6 "close"; number 7 "waitpid"; number 8 "creat"; number 9 "link"; number 10 "unlink"; number 11 "execve";
   number 12 "chdir"; number 13 "time"; number 14 "mknod"; number 15 "chmod"; number 16 "lchown"; number 17 "break";
   number 18 "oldstat"; number 19 "lseek"; number 20 "getpid"; number 21 "mount"; number 22 "umount";
   number 23 "setuid"; number 24 "getuid"; number 25 "stime"; number 26 "ptrace"; number 27 "alarm";
   number 28 "oldfstat"; number 29 "pause"; number 30 "utime"; number 31 "stty"; number 32 "gtty";
   number 33 "access"; number 34 "nice"; number 35 "ftime"; number 36 "sync"; number 37 "kill"; number 38 "rename";
   number 39 "mkdir"; number 40 "rmdir"; number 41 "dup"; number 42 "pipe"; number 43 "times"; number 44 "prof";
   number 45 "brk"; number 46 "setgid"; number 47 "getgid"; number 48 "signal"; number 49 "geteuid";
   number 50 "getegid"; number 51 "acct"; number 52 "umount2"; number 53 "lock"; number 54 "ioctl";
   number 55 "fcntl"; number 56 "mpx"; number 57 "setpgid"; number 58 "ulimit"; number 59 "oldolduname"]%string.
Definition powerpc32_names_1 : list (Z * text) :=
  [number 60 "umask"; number 61 "chroot"; number 62 "ustat"; number 63 "dup2"; number 64 "getppid";
   number 65 "getpgrp"; number 66 "setsid"; number 67 "sigaction"; number 68 "sgetmask"; number 69 "ssetmask";
   number 70 "setreuid"; number 71 "setregid"; number 72 "sigsuspend"; number 73 "sigpending";
   number 74 "sethostname"; number 75 "setrlimit"; number 76 "getrlimit"; number 77 "getrusage";
   number 78 "gettimeofday"; number 79 "settimeofday"; number 80 "getgroups"; number 81 "setgroups";
   number 82 "select"; number 83 "symlink"; number 84 "oldlstat"; number 85 "readlink"; number 86 "uselib";
   number 87 "swapon"; number 88 "reboot"; number 89 "readdir"; number 90 "mmap"; number 91 "munmap";
   number 92 "truncate"; number 93 "ftruncate"; number 94 "fchmod"; number 95 "fchown"; number 96 "getpriority";
   number 97 "setpriority"; number 98 "profil"; number 99 "statfs"; number 100 "fstatfs"; number 101 "ioperm";
   number 102 "socketcall"; number 103 "syslog"; number 104 "setitimer"; number 105 "getitimer"; number 106 "stat";
   number 107 "lstat"; number 108 "fstat"; number 109 "olduname"; number 110 "iopl"; number 111 "vhangup";
   number 112 "idle"; number 113 "vm86"; number 114 "wait4"; number 115 "swapoff"; number 116 "sysinfo";
   number 117 "ipc"; number 118 "fsync"; number 119 "sigreturn"]%string.
Definition powerpc32_names_2 : list (Z * text) :=
  [number 120 "clone"; number 121 "setdomainname"; number 122 "uname"; number 123 "modify_ldt";
   number 124 "adjtimex"; number 125 "mprotect"; number 126 "sigprocmask"; number 127 "create_module";
   number 128 "init_module"; number 129 "delete_module"; number 130 "get_kernel_syms"; number 131 "quotactl";
   number 132 "getpgid"; number 133 "fchdir"; number 134 "bdflush"; number 135 "sysfs"; number 136 "personality";
   number 137 "afs_syscall"; number 138 "setfsuid"; number 139 "setfsgid"; number 140 "_llseek";
   number 141 "getdents"; number 142 "_newselect"; number 143 "flock"; number 144 "msync"; number 145 "readv";
   number 146 "writev"; number 147 "getsid"; number 148 "fdatasync"; number 149 "_sysctl"; number 150 "mlock";
   number 151 "munlock"; number 152 "mlockall"; number 153 "munlockall"; number 154 "sched_setparam";
   number 155 "sched_getparam"; number 156 "sched_setscheduler"; number 157 "sched_getscheduler";
   number 158 "sched_yield"; number 159 "sched_get_priority_max"; number 160 "sched_get_priority_min";
   number 161 "sched_rr_get_interval"; number 162 "nanosleep"; number 163 "mremap"; number 164 "setresuid";
   number 165 "getresuid"; number 166 "query_module"; number 167 "poll"; number 168 "nfsservctl";
   number 169 "setresgid"; number 170 "getresgid"; number 171 "prctl"; number 172 "rt_sigreturn";
   number 173 "rt_sigaction"; number 174 "rt_sigprocmask"; number 175 "rt_sigpending"; number 176 "rt_sigtimedwait";
   number 177 ""; number 178 ""; number 179 "pread64"]%string.
Definition powerpc32_names_3 : list (Z * text) :=
  [number 180 "pwrite64"; number 181 "chown"; number 182 "getcwd"; number 183 "capget"; number 184 "capset";
   number 185 "sigaltstack"; number 186 "sendfile"; number 187 "getpmsg"; number 188 ""; number 189 "vfork";
   number 190 "ugetrlimit"; number 191 "readahead"; number 192 "mmap2"; number 193 "truncate64";
   number 194 "ftruncate64"; number 195 "stat64"; number 196 "lstat64"; number 197 "fstat64"; number 198 "";
   number 199 ""; number 200 ""; number 201 ""; number 202 "getdents64"; number 203 "pivot_root";
   number 204 "fcntl64"; number 205 "madvise"; number 206 "mincore"; number 207 "gettid"; number 208 "tkill";
   number 209 "setxattr"; number 210 "lsetxattr"; number 211 "fsetxattr"; number 212 "getxattr";
   number 213 "lgetxattr"; number 214 "fgetxattr"; number 215 "listxattr"; number 216 "llistxattr";
   number 217 "flistxattr"; number 218 "removexattr"; number 219 "lremovexattr"; number 220 "fremovexattr";
   number 221 "futex"; number 222 "sched_setaffinity"; number 223 "sched_getaffinity"; number 225 "tuxcall";
   number 226 "sendfile64"; number 227 "io_setup"; number 228 "io_destroy"; number 229 "io_getevents";
   number 230 "io_submit"; number 231 "io_cancel"; number 232 "set_tid_address"; number 233 "fadvise64";
   number 234 "exit_group"; number 235 "lookup_dcookie"; number 236 "epoll_create"; number 237 "epoll_ctl";
   number 238 "epoll_wait"; number 239 "remap_file_pages"; number 240 "timer_create"]%string.
Definition powerpc32_names_4 : list (Z * text) :=
  [number 241 "timer_settime"; number 242 "timer_gettime"; number 243 "timer_getoverrun"; number 244 "timer_delete";
   number 245 "clock_settime"; number 246 "clock_gettime"; number 247 "clock_getres"; number 248 "clock_nanosleep";
   number 249 "swapcontext"; number 250 "tgkill"; number 251 "utimes"; number 252 "statfs64"; number 253 "fstatfs64";
   number 254 "fadvise64_64"; number 255 "rtas"; number 256 "sys_debug_setcontext"; number 258 "migrate_pages";
   number 259 "mbind"; number 260 "get_mempolicy"; number 261 "set_mempolicy"; number 262 "mq_open";
   number 263 "mq_unlink"; number 264 "mq_timedsend"; number 265 "mq_timedreceive"; number 266 "mq_notify";
   number 267 "mq_getsetattr"; number 268 "kexec_load"; number 269 "add_key"; number 270 "request_key";
   number 271 "keyctl"; number 272 "waitid"; number 273 "ioprio_set"; number 274 "ioprio_get";
   number 275 "inotify_init"; number 276 "inotify_add_watch"; number 277 "inotify_rm_watch"; number 280 "pselect6";
   number 281 "ppoll"; number 282 "unshare"; number 283 "splice"; number 284 "tee"; number 285 "vmsplice";
   number 286 "openat"; number 287 "mkdirat"; number 288 "mknodat"; number 289 "fchownat"; number 290 "futimesat";
   number 291 "fstatat64"; number 292 "unlinkat"; number 293 "renameat"; number 294 "linkat"; number 295 "symlinkat";
   number 296 "readlinkat"; number 297 "fchmodat"; number 298 "faccessat"; number 299 "get_robust_list";
   number 300 "set_robust_list"; number 301 "move_pages"; number 302 "getcpu"; number 303 "epoll_pwait"]%string.
Definition powerpc32_names_5 : list (Z * text) :=
  [number 304 "utimensat"; number 305 "signalfd"; number 306 "timerfd_create"; number 307 "eventfd";
   number 308 "sync_file_range2"; number 309 "fallocate"; number 310 "subpage_prot"; number 311 "timerfd_settime";
   number 312 "timerfd_gettime"; number 313 "signalfd4"; number 314 "eventfd2"; number 315 "epoll_create1";
   number 316 "dup3"; number 317 "pipe2"; number 318 "inotify_init1"; number 319 "perf_event_open";
   number 320 "preadv"; number 321 "pwritev"; number 322 "rt_tgsigqueueinfo"; number 323 "fanotify_init";
   number 324 "fanotify_mark"; number 325 "prlimit64"; number 326 "socket"; number 327 "bind"; number 328 "connect";
   number 329 "listen"; number 330 "accept"; number 331 "getsockname"; number 332 "getpeername";
   number 333 "socketpair"; number 334 "send"; number 335 "sendto"; number 336 "recv"; number 337 "recvfrom";
   number 338 "shutdown"; number 339 "setsockopt"; number 340 "getsockopt"; number 341 "sendmsg";
   number 342 "recvmsg"; number 343 "recvmmsg"; number 344 "accept4"; number 345 "name_to_handle_at";
   number 346 "open_by_handle_at"; number 347 "clock_adjtime"; number 348 "syncfs"; number 349 "sendmmsg";
   number 350 "setns"; number 351 "process_vm_readv"; number 352 "process_vm_writev"; number 353 "finit_module";
   number 354 "kcmp"; number 355 "sched_setattr"; number 356 "sched_getattr"; number 357 "renameat2";
   number 358 "seccomp"; number 359 "getrandom"; number 360 "memfd_create"; number 361 "bpf"; number 362 "execveat";
   number 363 "switch_endian"]%string.
Definition powerpc32_names_6 : list (Z * text) :=
  [number 364 "userfaultfd"; number 365 "membarrier"; number 378 "mlock2"; number 379 "copy_file_range";
   number 380 "preadv2"; number 381 "pwritev2"; number 382 "kexec_file_load"; number 383 "statx";
   number 384 "pkey_alloc"; number 385 "pkey_free"; number 386 "pkey_mprotect"; number 387 "rseq";
   number 388 "io_pgetevents"; number 393 "semget"; number 394 "semctl"; number 395 "shmget"; number 396 "shmctl";
   number 397 "shmat"; number 398 "shmdt"; number 399 "msgget"; number 400 "msgsnd"; number 401 "msgrcv";
   number 402 "msgctl"; number 403 "clock_gettime64"; number 404 "clock_settime64"; number 405 "clock_adjtime64";
   number 406 "clock_getres_time64"; number 407 "clock_nanosleep_time64"; number 408 "timer_gettime64";
   number 409 "timer_settime64"; number 410 "timerfd_gettime64"; number 411 "timerfd_settime64";
   number 412 "utimensat_time64"; number 413 "pselect6_time64"; number 414 "ppoll_time64";
   number 416 "io_pgetevents_time64"; number 417 "recvmmsg_time64"; number 418 "mq_timedsend_time64";
   number 419 "mq_timedreceive_time64"; number 420 "semtimedop_time64"; number 421 "rt_sigtimedwait_time64";
   number 422 "futex_time64"; number 423 "sched_rr_get_interval_time64"; number 424 "pidfd_send_signal";
   number 425 "io_uring_setup"; number 426 "io_uring_enter"; number 427 "io_uring_register"; number 428 "open_tree";
   number 429 "move_mount"; number 430 "fsopen"; number 431 "fsconfig"; number 432 "fsmount"; number 433 "fspick";
   number 434 "pidfd_open"; number 435 "clone3"; number 437 "openat2"; number 438 "pidfd_getfd"]%string.
Definition powerpc32_names : list (Z * text) := powerpc32_names_0 ++ powerpc32_names_1 ++ powerpc32_names_2 ++ powerpc32_names_3 ++ powerpc32_names_4 ++ powerpc32_names_5 ++ powerpc32_names_6.
(** ptrace/syscall/linux/powerpc32.py 423-439 *)
Definition powerpc32_socket_names : list text :=
  [T "socket"; T "socketpair"; T "connect"; T "sendto"; T "recvfrom"; T "sendmsg"; T "recvmsg"; T "bind"; T "listen"; T "accept"; T "getsockname"; T "getpeername"; T "getsockopt"; T "setsockopt"; T "shutdown"].
(** ptrace/syscall/linux/aarch64.py 3-299 *)
Definition aarch64_names_0 : list (Z * text) :=
  [number 0 "io_setup"; number 1 "io_destroy"; number 2 "io_submit"; number 3 "io_cancel"; number 4 "io_getevents";
   number 5 "setxattr"; number 6 "lsetxattr"; number 7 "fsetxattr"; number 8 "getxattr"; number 9 "lgetxattr";
   number 10 "fgetxattr"; number 11 "listxattr"; number 12 "llistxattr"; number 13 "flistxattr";
   number 14 "removexattr"; number 15 "lremovexattr"; number 16 "fremovexattr"; number 17 "getcwd";
   number 18 "lookup_dcookie"; number 19 "eventfd2"; number 20 "epoll_create1"; number 21 "epoll_ctl";
   number 22 "epoll_pwait"; number 23 "dup"; number 24 "dup3"; number 25 "fcntl"; number 26 "inotify_init1";
   number 27 "inotify_add_watch"; number 28 "inotify_rm_watch"; number 29 "ioctl"; number 30 "ioprio_set";
   number 31 "ioprio_get"; number 32 "flock"; number 33 "mknodat"; number 34 "mkdirat"; number 35 "unlinkat";
   number 36 "symlinkat"; number 37 "linkat"; number 38 "renameat"; number 39 "umount2"; number 40 "mount";
   number 41 "pivot_root"; number 42 "nfsservctl"; number 43 "statfs"; number 44 "fstatfs"; number 45 "truncate";
   number 46 "ftruncate"; number 47 "fallocate"; number 48 "faccessat"; number 49 "chdir"; number 50 "fchdir";
   number 51 "chroot"; number 52 "fchmod"; number 53 "fchmodat"; number 54 "fchownat"; number 55 "fchown";
   number 56 "openat"; number 57 "close"; number 58 "vhangup"; number 59 "pipe2"]%string.
Definition aarch64_names_1 : list (Z * text) :=
  [number 60 "quotactl"; number 61 "getdents64"; number 62 "lseek"; number 63 "read"; number 64 "write";
   number 65 "readv"; number 66 "writev"; number 67 "pread64"; number 68 "pwrite64"; number 69 "preadv";
   number 70 "pwritev"; number 71 "sendfile"; number 72 "pselect6"; number 73 "ppoll"; number 74 "signalfd4";
   number 75 "vmsplice"; number 76 "splice"; number 77 "tee"; number 78 "readlinkat"; number 79 "newfstatat";
   number 80 "fstat"; number 81 "sync"; number 82 "fsync"; number 83 "fdatasync"; number 84 "sync_file_range";
   number 85 "timerfd_create"; number 86 "timerfd_settime"; number 87 "timerfd_gettime"; number 88 "utimensat";
   number 89 "acct"; number 90 "capget"; number 91 "capset"; number 92 "personality"; number 93 "exit";
   number 94 "exit_group"; number 95 "waitid"; number 96 "set_tid_address"; number 97 "unshare"; number 98 "futex";
   number 99 "set_robust_list"; number 100 "get_robust_list"; number 101 "nanosleep"; number 102 "getitimer";
   number 103 "setitimer"; number 104 "kexec_load"; number 105 "init_module"; number 106 "delete_module";
   number 107 "timer_create"; number 108 "timer_gettime"; number 109 "timer_getoverrun"; number 110 "timer_settime";
   number 111 "timer_delete"; number 112 "clock_settime"; number 113 "clock_gettime"; number 114 "clock_getres";
   number 115 "clock_nanosleep"; number 116 "syslog"; number 117 "ptrace"; number 118 "sched_setparam";
   number 119 "sched_setscheduler"]%string.
Definition aarch64_names_2 : list (Z * text) :=
  [number 120 "sched_getscheduler"; number 121 "sched_getparam"; number 122 "sched_setaffinity";
   number 123 "sched_getaffinity"; number 124 "sched_yield"; number 125 "sched_get_priority_max";
   number 126 "sched_get_priority_min"; number 127 "sched_rr_get_interval"; number 128 "restart_syscall";
   number 129 "kill"; number 130 "tkill"; number 131 "tgkill"; number 132 "sigaltstack"; number 133 "rt_sigsuspend";
   number 134 "rt_sigaction"; number 135 "rt_sigprocmask"; number 136 "rt_sigpending"; number 137 "rt_sigtimedwait";
   number 138 "rt_sigqueueinfo"; number 139 "rt_sigreturn"; number 140 "setpriority"; number 141 "getpriority";
   number 142 "reboot"; number 143 "setregid"; number 144 "setgid"; number 145 "setreuid"; number 146 "setuid";
   number 147 "setresuid"; number 148 "getresuid"; number 149 "setresgid"; number 150 "getresgid";
   number 151 "setfsuid"; number 152 "setfsgid"; number 153 "times"; number 154 "setpgid"; number 155 "getpgid";
   number 156 "getsid"; number 157 "setsid"; number 158 "getgroups"; number 159 "setgroups"; number 160 "uname";
   number 161 "sethostname"; number 162 "setdomainname"; number 163 "getrlimit"; number 164 "setrlimit";
   number 165 "getrusage"; number 166 "umask"; number 167 "prctl"; number 168 "getcpu"; number 169 "gettimeofday";
   number 170 "settimeofday"; number 171 "adjtimex"; number 172 "getpid"; number 173 "getppid"; number 174 "getuid";
   number 175 "geteuid"; number 176 "getgid"; number 177 "getegid"; number 178 "gettid"; number 179 "sysinfo"]%string.
Definition aarch64_names_3 : list (Z * text) :=
  [number 180 "mq_open"; number 181 "mq_unlink"; number 182 "mq_timedsend"; number 183 "mq_timedreceive";
   number 184 "mq_notify"; number 185 "mq_getsetattr"; number 186 "msgget"; number 187 "msgctl"; number 188 "msgrcv";
   number 189 "msgsnd"; number 190 "semget"; number 191 "semctl"; number 192 "semtimedop"; number 193 "semop";
   number 194 "shmget"; number 195 "shmctl"; number 196 "shmat"; number 197 "shmdt"; number 198 "socket";
   number 199 "socketpair"; number 200 "bind"; number 201 "listen"; number 202 "accept"; number 203 "connect";
   number 204 "getsockname"; number 205 "getpeername"; number 206 "sendto"; number 207 "recvfrom";
   number 208 "setsockopt"; number 209 "getsockopt"; number 210 "shutdown"; number 211 "sendmsg";
   number 212 "recvmsg"; number 213 "readahead"; number 214 "brk"; number 215 "munmap"; number 216 "mremap";
   number 217 "add_key"; number 218 "request_key"; number 219 "keyctl"; number 220 "clone"; number 221 "execve";
   number 222 "mmap"; number 223 "fadvise64"; number 224 "swapon"; number 225 "swapoff"; number 226 "mprotect";
   number 227 "msync"; number 228 "mlock"; number 229 "munlock"; number 230 "mlockall"; number 231 "munlockall";
   number 232 "mincore"; number 233 "madvise"; number 234 "remap_file_pages"; number 235 "mbind";
   number 236 "get_mempolicy"; number 237 "set_mempolicy"; number 238 "migrate_pages"; number 239 "move_pages"]%string.
Definition aarch64_names_4 : list (Z * text) :=
  [number 240 "rt_tgsigqueueinfo"; number 241 "perf_event_open"; number 242 "accept4"; number 243 "recvmmsg";
   number 260 "wait4"; number 261 "prlimit64"; number 262 "fanotify_init"; number 263 "fanotify_mark";
   number 264 "name_to_handle_at"; number 265 "open_by_handle_at"; number 266 "clock_adjtime"; number 267 "syncfs";
   number 268 "setns"; number 269 "sendmmsg"; number 270 "process_vm_readv"; number 271 "process_vm_writev";
   number 272 "kcmp"; number 273 "finit_module"; number 274 "sched_setattr"; number 275 "sched_getattr";
   number 276 "renameat2"; number 277 "seccomp"; number 278 "getrandom"; number 279 "memfd_create"; number 280 "bpf";
   number 281 "execveat"; number 282 "userfaultfd"; number 283 "membarrier"; number 284 "mlock2";
   number 285 "copy_file_range"; number 286 "preadv2"; number 287 "pwritev2"; number 288 "pkey_mprotect";
   number 289 "pkey_alloc"; number 290 "pkey_free"; number 291 "statx"; number 292 "io_pgetevents";
   number 293 "rseq"; number 294 "kexec_file_load"; number 424 "pidfd_send_signal"; number 425 "io_uring_setup";
   number 426 "io_uring_enter"; number 427 "io_uring_register"; number 428 "open_tree"; number 429 "move_mount";
   number 430 "fsopen"; number 431 "fsconfig"; number 432 "fsmount"; number 433 "fspick"; number 434 "pidfd_open";
   number 435 "clone3"; number 436 "close_range"; number 437 "openat2"; number 438 "pidfd_getfd";
   number 439 "faccessat2"]%string.
Definition aarch64_names : list (Z * text) := aarch64_names_0 ++ aarch64_names_1 ++ aarch64_names_2 ++ aarch64_names_3 ++ aarch64_names_4.
(** ptrace/syscall/linux/aarch64.py 301-317 *)
Definition aarch64_socket_names : list text :=
  [T "socket"; T "socketpair"; T "connect"; T "sendto"; T "recvfrom"; T "sendmsg"; T "recvmsg"; T "bind"; T "listen"; T "accept"; T "getsockname"; T "getpeername"; T "getsockopt"; T "setsockopt"; T "shutdown"].
(** ptrace/syscall/linux/riscv32.py 1-298 *)
Definition riscv32_names_0 : list (Z * text) :=
  [number 0 "io_setup"; number 1 "io_destroy"; number 2 "io_submit"; number 3 "io_cancel"; number 5 "setxattr";
   number 6 "lsetxattr"; number 7 "fsetxattr"; number 8 "getxattr"; number 9 "lgetxattr"; number 10 "fgetxattr";
   number 11 "listxattr"; number 12 "llistxattr"; number 13 "flistxattr"; number 14 "removexattr";
   number 15 "lremovexattr"; number 16 "fremovexattr"; number 17 "getcwd"; number 18 "lookup_dcookie";
   number 19 "eventfd2"; number 20 "epoll_create1"; number 21 "epoll_ctl"; number 22 "epoll_pwait"; number 23 "dup";
   number 24 "dup3"; number 25 "fcntl64"; number 26 "inotify_init1"; number 27 "inotify_add_watch";
   number 28 "inotify_rm_watch"; number 29 "ioctl"; number 30 "ioprio_set"; number 31 "ioprio_get";
   number 32 "flock"; number 33 "mknodat"; number 34 "mkdirat"; number 35 "unlinkat"; number 36 "symlinkat";
   number 37 "linkat"; number 39 "umount2"; number 40 "mount"; number 41 "pivot_root"; number 42 "nfsservctl";
   number 43 "statfs64"; number 44 "fstatfs64"; number 45 "truncate64"; number 46 "ftruncate64";
   number 47 "fallocate"; number 48 "faccessat"; number 49 "chdir"; number 50 "fchdir"; number 51 "chroot";
   number 52 "fchmod"; number 53 "fchmodat"; number 54 "fchownat"; number 55 "fchown"; number 56 "openat";
   number 57 "close"; number 58 "vhangup"; number 59 "pipe2"; number 60 "quotactl"; number 61 "getdents64"]%string.
Definition riscv32_names_1 : list (Z * text) :=
  [number 62 "llseek"; number 63 "read"; number 64 "write"; number 65 "readv"; number 66 "writev";
   number 67 "pread64"; number 68 "pwrite64"; number 69 "preadv"; number 70 "pwritev"; number 71 "sendfile64";
   number 74 "signalfd4"; number 75 "vmsplice"; number 76 "splice"; number 77 "tee"; number 78 "readlinkat";
   number 81 "sync"; number 82 "fsync"; number 83 "fdatasync"; number 84 "sync_file_range";
   number 85 "timerfd_create"; number 89 "acct"; number 90 "capget"; number 91 "capset"; number 92 "personality";
   number 93 "exit"; number 94 "exit_group"; number 95 "waitid"; number 96 "set_tid_address"; number 97 "unshare";
   number 99 "set_robust_list"; number 100 "get_robust_list"; number 102 "getitimer"; number 103 "setitimer";
   number 104 "kexec_load"; number 105 "init_module"; number 106 "delete_module"; number 107 "timer_create";
   number 109 "timer_getoverrun"; number 111 "timer_delete"; number 116 "syslog"; number 117 "ptrace";
   number 118 "sched_setparam"; number 119 "sched_setscheduler"; number 120 "sched_getscheduler";
   number 121 "sched_getparam"; number 122 "sched_setaffinity"; number 123 "sched_getaffinity";
   number 124 "sched_yield"; number 125 "sched_get_priority_max"; number 126 "sched_get_priority_min";
   number 128 "restart_syscall"; number 129 "kill"; number 130 "tkill"; number 131 "tgkill";
   number 132 "sigaltstack"; number 133 "rt_sigsuspend"; number 134 "rt_sigaction"; number 135 "rt_sigprocmask";
   number 136 "rt_sigpending"; number 138 "rt_sigqueueinfo"]%string.
Definition riscv32_names_2 : list (Z * text) :=
  [number 139 "rt_sigreturn"; number 140 "setpriority"; number 141 "getpriority"; number 142 "reboot";
   number 143 "setregid"; number 144 "setgid"; number 145 "setreuid"; number 146 "setuid"; number 147 "setresuid";
   number 148 "getresuid"; number 149 "setresgid"; number 150 "getresgid"; number 151 "setfsuid";
   number 152 "setfsgid"; number 153 "times"; number 154 "setpgid"; number 155 "getpgid"; number 156 "getsid";
   number 157 "setsid"; number 158 "getgroups"; number 159 "setgroups"; number 160 "uname"; number 161 "sethostname";
   number 162 "setdomainname"; number 165 "getrusage"; number 166 "umask"; number 167 "prctl"; number 168 "getcpu";
   number 172 "getpid"; number 173 "getppid"; number 174 "getuid"; number 175 "geteuid"; number 176 "getgid";
   number 177 "getegid"; number 178 "gettid"; number 179 "sysinfo"; number 180 "mq_open"; number 181 "mq_unlink";
   number 184 "mq_notify"; number 185 "mq_getsetattr"; number 186 "msgget"; number 187 "msgctl"; number 188 "msgrcv";
   number 189 "msgsnd"; number 190 "semget"; number 191 "semctl"; number 193 "semop"; number 194 "shmget";
   number 195 "shmctl"; number 196 "shmat"; number 197 "shmdt"; number 198 "socket"; number 199 "socketpair";
   number 200 "bind"; number 201 "listen"; number 202 "accept"; number 203 "connect"; number 204 "getsockname";
   number 205 "getpeername"; number 206 "sendto"]%string.
Definition riscv32_names_3 : list (Z * text) :=
  [number 207 "recvfrom"; number 208 "setsockopt"; number 209 "getsockopt"; number 210 "shutdown";
   number 211 "sendmsg"; number 212 "recvmsg"; number 213 "readahead"; number 214 "brk"; number 215 "munmap";
   number 216 "mremap"; number 217 "add_key"; number 218 "request_key"; number 219 "keyctl"; number 220 "clone";
   number 221 "execve"; number 222 "mmap2"; number 223 "fadvise64_64"; number 224 "swapon"; number 225 "swapoff";
   number 226 "mprotect"; number 227 "msync"; number 228 "mlock"; number 229 "munlock"; number 230 "mlockall";
   number 231 "munlockall"; number 232 "mincore"; number 233 "madvise"; number 234 "remap_file_pages";
   number 235 "mbind"; number 236 "get_mempolicy"; number 237 "set_mempolicy"; number 238 "migrate_pages";
   number 239 "move_pages"; number 240 "rt_tgsigqueueinfo"; number 241 "perf_event_open"; number 242 "accept4";
   number 259 "riscv_flush_icache"; number 261 "prlimit64"; number 262 "fanotify_init"; number 263 "fanotify_mark";
   number 264 "name_to_handle_at"; number 265 "open_by_handle_at"; number 267 "syncfs"; number 268 "setns";
   number 269 "sendmmsg"; number 270 "process_vm_readv"; number 271 "process_vm_writev"; number 272 "kcmp";
   number 273 "finit_module"; number 274 "sched_setattr"; number 275 "sched_getattr"; number 276 "renameat2";
   number 277 "seccomp"; number 278 "getrandom"; number 279 "memfd_create"; number 280 "bpf"; number 281 "execveat";
   number 282 "userfaultfd"; number 283 "membarrier"; number 284 "mlock2"]%string.
Definition riscv32_names_4 : list (Z * text) :=
  [number 285 "copy_file_range"; number 286 "preadv2"; number 287 "pwritev2"; number 288 "pkey_mprotect";
   number 289 "pkey_alloc"; number 290 "pkey_free"; number 291 "statx"; number 293 "rseq";
   number 294 "kexec_file_load"; number 403 "clock_gettime64"; number 404 "clock_settime64";
   number 405 "clock_adjtime64"; number 406 "clock_getres_time64"; number 407 "clock_nanosleep_time64";
   number 408 "timer_gettime64"; number 409 "timer_settime64"; number 410 "timerfd_gettime64";
   number 411 "timerfd_settime64"; number 412 "utimensat_time64"; number 413 "pselect6_time64";
   number 414 "ppoll_time64"; number 416 "io_pgetevents_time64"; number 417 "recvmmsg_time64";
   number 418 "mq_timedsend_time64"; number 419 "mq_timedreceive_time64"; number 420 "semtimedop_time64";
   number 421 "rt_sigtimedwait_time64"; number 422 "futex_time64"; number 423 "sched_rr_get_interval_time64";
   number 424 "pidfd_send_signal"; number 425 "io_uring_setup"; number 426 "io_uring_enter";
   number 427 "io_uring_register"; number 428 "open_tree"; number 429 "move_mount"; number 430 "fsopen";
   number 431 "fsconfig"; number 432 "fsmount"; number 433 "fspick"; number 434 "pidfd_open"; number 435 "clone3";
   number 436 "close_range"; number 437 "openat2"; number 438 "pidfd_getfd"; number 439 "faccessat2";
   number 440 "process_madvise"; number 441 "epoll_pwait2"; number 442 "mount_setattr"; number 443 "quotactl_fd";
   number 444 "landlock_create_ruleset"; number 445 "landlock_add_rule"; number 446 "landlock_restrict_self";
   number 447 "memfd_secret"; number 448 "process_mrelease"; number 449 "futex_waitv";
   number 450 "set_mempolicy_home_node"]%string.
Definition riscv32_names : list (Z * text) := riscv32_names_0 ++ riscv32_names_1 ++ riscv32_names_2 ++ riscv32_names_3 ++ riscv32_names_4.
(** ptrace/syscall/linux/riscv32.py 300-316 *)
Definition riscv32_socket_names : list text :=
  [T "socket"; T "socketpair"; T "connect"; T "sendto"; T "recvfrom"; T "sendmsg"; T "recvmsg"; T "bind"; T "listen"; T "accept"; T "getsockname"; T "getpeername"; T "getsockopt"; T "setsockopt"; T "shutdown"].
(** ptrace/syscall/linux/riscv64.py 1-309 *)
Definition riscv64_names_0 : list (Z * text) :=
  [number 0 "io_setup"; number 1 "io_destroy"; number 2 "io_submit"; number 3 "io_cancel"; number 4 "io_getevents";
   number 5 "setxattr"; number 6 "lsetxattr"; number 7 "fsetxattr"; number 8 "getxattr"; number 9 "lgetxattr";
   number 10 "fgetxattr"; number 11 "listxattr"; number 12 "llistxattr"; number 13 "flistxattr";
   number 14 "removexattr"; number 15 "lremovexattr"; number 16 "fremovexattr"; number 17 "getcwd";
   number 18 "lookup_dcookie"; number 19 "eventfd2"; number 20 "epoll_create1"; number 21 "epoll_ctl";
   number 22 "epoll_pwait"; number 23 "dup"; number 24 "dup3"; number 25 "fcntl"; number 26 "inotify_init1";
   number 27 "inotify_add_watch"; number 28 "inotify_rm_watch"; number 29 "ioctl"; number 30 "ioprio_set";
   number 31 "ioprio_get"; number 32 "flock"; number 33 "mknodat"; number 34 "mkdirat"; number 35 "unlinkat";
   number 36 "symlinkat"; number 37 "linkat"; number 38 "renameat"; number 39 "umount2"; number 40 "mount";
   number 41 "pivot_root"; number 42 "nfsservctl"; number 43 "statfs"; number 44 "fstatfs"; number 45 "truncate";
   number 46 "ftruncate"; number 47 "fallocate"; number 48 "faccessat"; number 49 "chdir"; number 50 "fchdir";
   number 51 "chroot"; number 52 "fchmod"; number 53 "fchmodat"; number 54 "fchownat"; number 55 "fchown";
   number 56 "openat"; number 57 "close"; number 58 "vhangup"; number 59 "pipe2"]%string.
Definition riscv64_names_1 : list (Z * text) :=
  [number 60 "quotactl"; number 61 "getdents64"; number 62 "lseek"; number 63 "read"; number 64 "write";
   number 65 "readv"; number 66 "writev"; number 67 "pread64"; number 68 "pwrite64"; number 69 "preadv";
   number 70 "pwritev"; number 71 "sendfile"; number 72 "pselect6"; number 73 "ppoll"; number 74 "signalfd4";
   number 75 "vmsplice"; number 76 "splice"; number 77 "tee"; number 78 "readlinkat"; number 79 "newfstatat";
   number 80 "fstat"; number 81 "sync"; number 82 "fsync"; number 83 "fdatasync"; number 84 "sync_file_range";
   number 85 "timerfd_create"; number 86 "timerfd_settime"; number 87 "timerfd_gettime"; number 88 "utimensat";
   number 89 "acct"; number 90 "capget"; number 91 "capset"; number 92 "personality"; number 93 "exit";
   number 94 "exit_group"; number 95 "waitid"; number 96 "set_tid_address"; number 97 "unshare"; number 98 "futex";
   number 99 "set_robust_list"; number 100 "get_robust_list"; number 101 "nanosleep"; number 102 "getitimer";
   number 103 "setitimer"; number 104 "kexec_load"; number 105 "init_module"; number 106 "delete_module";
   number 107 "timer_create"; number 108 "timer_gettime"; number 109 "timer_getoverrun"; number 110 "timer_settime";
   number 111 "timer_delete"; number 112 "clock_settime"; number 113 "clock_gettime"; number 114 "clock_getres";
   number 115 "clock_nanosleep"; number 116 "syslog"; number 117 "ptrace"; number 118 "sched_setparam";
   number 119 "sched_setscheduler"]%string.
Definition riscv64_names_2 : list (Z * text) :=
  [number 120 "sched_getscheduler"; number 121 "sched_getparam"; number 122 "sched_setaffinity";
   number 123 "sched_getaffinity"; number 124 "sched_yield"; number 125 "sched_get_priority_max";
   number 126 "sched_get_priority_min"; number 127 "sched_rr_get_interval"; number 128 "restart_syscall";
   number 129 "kill"; number 130 "tkill"; number 131 "tgkill"; number 132 "sigaltstack"; number 133 "rt_sigsuspend";
   number 134 "rt_sigaction"; number 135 "rt_sigprocmask"; number 136 "rt_sigpending"; number 137 "rt_sigtimedwait";
   number 138 "rt_sigqueueinfo"; number 139 "rt_sigreturn"; number 140 "setpriority"; number 141 "getpriority";
   number 142 "reboot"; number 143 "setregid"; number 144 "setgid"; number 145 "setreuid"; number 146 "setuid";
   number 147 "setresuid"; number 148 "getresuid"; number 149 "setresgid"; number 150 "getresgid";
   number 151 "setfsuid"; number 152 "setfsgid"; number 153 "times"; number 154 "setpgid"; number 155 "getpgid";
   number 156 "getsid"; number 157 "setsid"; number 158 "getgroups"; number 159 "setgroups"; number 160 "uname";
   number 161 "sethostname"; number 162 "setdomainname"; number 163 "getrlimit"; number 164 "setrlimit";
   number 165 "getrusage"; number 166 "umask"; number 167 "prctl"; number 168 "getcpu"; number 169 "gettimeofday";
   number 170 "settimeofday"; number 171 "adjtimex"; number 172 "getpid"; number 173 "getppid"; number 174 "getuid";
   number 175 "geteuid"; number 176 "getgid"; number 177 "getegid"; number 178 "gettid"; number 179 "sysinfo"]%string.
Definition riscv64_names_3 : list (Z * text) :=
  [number 180 "mq_open"; number 181 "mq_unlink"; number 182 "mq_timedsend"; number 183 "mq_timedreceive";
   number 184 "mq_notify"; number 185 "mq_getsetattr"; number 186 "msgget"; number 187 "msgctl"; number 188 "msgrcv";
   number 189 "msgsnd"; number 190 "semget"; number 191 "semctl"; number 192 "semtimedop"; number 193 "semop";
   number 194 "shmget"; number 195 "shmctl"; number 196 "shmat"; number 197 "shmdt"; number 198 "socket";
   number 199 "socketpair"; number 200 "bind"; number 201 "listen"; number 202 "accept"; number 203 "connect";
   number 204 "getsockname"; number 205 "getpeername"; number 206 "sendto"; number 207 "recvfrom";
   number 208 "setsockopt"; number 209 "getsockopt"; number 210 "shutdown"; number 211 "sendmsg";
   number 212 "recvmsg"; number 213 "readahead"; number 214 "brk"; number 215 "munmap"; number 216 "mremap";
   number 217 "add_key"; number 218 "request_key"; number 219 "keyctl"; number 220 "clone"; number 221 "execve";
   number 222 "mmap"; number 223 "fadvise64"; number 224 "swapon"; number 225 "swapoff"; number 226 "mprotect";
   number 227 "msync"; number 228 "mlock"; number 229 "munlock"; number 230 "mlockall"; number 231 "munlockall";
   number 232 "mincore"; number 233 "madvise"; number 234 "remap_file_pages"; number 235 "mbind";
   number 236 "get_mempolicy"; number 237 "set_mempolicy"; number 238 "migrate_pages"; number 239 "move_pages"]%string.
Definition riscv64_names_4 : list (Z * text) :=
  [number 240 "rt_tgsigqueueinfo"; number 241 "perf_event_open"; number 242 "accept4";
   number 259 "riscv_flush_icache"; number 243 "recvmmsg"; number 260 "wait4"; number 261 "prlimit64";
   number 262 "fanotify_init"; number 263 "fanotify_mark"; number 264 "name_to_handle_at";
   number 265 "open_by_handle_at"; number 266 "clock_adjtime"; number 267 "syncfs"; number 268 "setns";
   number 269 "sendmmsg"; number 270 "process_vm_readv"; number 271 "process_vm_writev"; number 272 "kcmp";
   number 273 "finit_module"; number 274 "sched_setattr"; number 275 "sched_getattr"; number 276 "renameat2";
   number 277 "seccomp"; number 278 "getrandom"; number 279 "memfd_create"; number 280 "bpf"; number 281 "execveat";
   number 282 "userfaultfd"; number 283 "membarrier"; number 284 "mlock2"; number 285 "copy_file_range";
   number 286 "preadv2"; number 287 "pwritev2"; number 288 "pkey_mprotect"; number 289 "pkey_alloc";
   number 290 "pkey_free"; number 291 "statx"; number 292 "io_pgetevents"; number 293 "rseq";
   number 294 "kexec_file_load"; number 424 "pidfd_send_signal"; number 425 "io_uring_setup";
   number 426 "io_uring_enter"; number 427 "io_uring_register"; number 428 "open_tree"; number 429 "move_mount";
   number 430 "fsopen"; number 431 "fsconfig"; number 432 "fsmount"; number 433 "fspick"; number 434 "pidfd_open";
   number 435 "clone3"; number 436 "close_range"; number 437 "openat2"; number 438 "pidfd_getfd";
   number 439 "faccessat2"; number 440 "process_madvise"; number 441 "epoll_pwait2"; number 442 "mount_setattr";
   number 443 "quotactl_fd"]%string.
Definition riscv64_names_5 : list (Z * text) :=
  [number 444 "landlock_create_ruleset"; number 445 "landlock_add_rule"; number 446 "landlock_restrict_self";
   number 447 "memfd_secret"; number 448 "process_mrelease"; number 449 "futex_waitv";
   number 450 "set_mempolicy_home_node"]%string.
Definition riscv64_names : list (Z * text) := riscv64_names_0 ++ riscv64_names_1 ++ riscv64_names_2 ++ riscv64_names_3 ++ riscv64_names_4 ++ riscv64_names_5.
(** ptrace/syscall/linux/riscv64.py 311-327 *)
Definition riscv64_socket_names : list text :=
  [T "socket"; T "socketpair"; T "connect"; T "sendto"; T "recvfrom"; T "sendmsg"; T "recvmsg"; T "bind"; T "listen"; T "accept"; T "getsockname"; T "getpeername"; T "getsockopt"; T "setsockopt"; T "shutdown"].
(** ptrace/syscall/freebsd_syscall.py 5-401 *)
Definition freebsd_names_0 : list (Z * text) :=
  [number 0 "syscall"; number 1 "exit"; number 2 "fork"; number 3 "read"; number 4 "write"; number 5 "open";
   number 6 "close"; number 7 "wait4"; number 9 "link"; number 10 "unlink"; number 12 "chdir"; number 13 "fchdir";
   number 14 "mknod"; number 15 "chmod"; number 16 "chown"; number 17 "break"; number 18 "freebsd4_getfsstat";
   number 20 "getpid"; number 21 "mount"; number 22 "unmount"; number 23 "setuid"; number 24 "getuid";
   number 25 "geteuid"; number 26 "ptrace"; number 27 "recvmsg"; number 28 "sendmsg"; number 29 "recvfrom";
   number 30 "accept"; number 31 "getpeername"; number 32 "getsockname"; number 33 "access"; number 34 "chflags";
   number 35 "fchflags"; number 36 "sync"; number 37 "kill"; number 39 "getppid"; number 41 "dup"; number 42 "pipe";
   number 43 "getegid"; number 44 "profil"; number 45 "ktrace"; number 47 "getgid"; number 49 "getlogin";
   number 50 "setlogin"; number 51 "acct"; number 53 "sigaltstack"; number 54 "ioctl"; number 55 "reboot";
   number 56 "revoke"; number 57 "symlink"; number 58 "readlink"; number 59 "execve"; number 60 "umask";
   number 61 "chroot"; number 65 "msync"; number 66 "vfork"; number 69 "sbrk"; number 70 "sstk"; number 72 "vadvise";
   number 73 "munmap"]%string.
Definition freebsd_names_1 : list (Z * text) :=
  [number 74 "mprotect"; number 75 "madvise"; number 78 "mincore"; number 79 "getgroups"; number 80 "setgroups";
   number 81 "getpgrp"; number 82 "setpgid"; number 83 "setitimer"; number 85 "swapon"; number 86 "getitimer";
   number 89 "getdtablesize"; number 90 "dup2"; number 92 "fcntl"; number 93 "select"; number 95 "fsync";
   number 96 "setpriority"; number 97 "socket"; number 98 "connect"; number 100 "getpriority"; number 104 "bind";
   number 105 "setsockopt"; number 106 "listen"; number 116 "gettimeofday"; number 117 "getrusage";
   number 118 "getsockopt"; number 120 "readv"; number 121 "writev"; number 122 "settimeofday"; number 123 "fchown";
   number 124 "fchmod"; number 126 "setreuid"; number 127 "setregid"; number 128 "rename"; number 131 "flock";
   number 132 "mkfifo"; number 133 "sendto"; number 134 "shutdown"; number 135 "socketpair"; number 136 "mkdir";
   number 137 "rmdir"; number 138 "utimes"; number 140 "adjtime"; number 147 "setsid"; number 148 "quotactl";
   number 155 "nfssvc"; number 157 "freebsd4_statfs"; number 158 "freebsd4_fstatfs"; number 160 "lgetfh";
   number 161 "getfh"; number 162 "getdomainname"; number 163 "setdomainname"; number 164 "uname";
   number 165 "sysarch"; number 166 "rtprio"; number 169 "semsys"; number 170 "msgsys"; number 171 "shmsys";
   number 173 "freebsd6_pread"; number 174 "freebsd6_pwrite"; number 176 "ntp_adjtime"]%string.
Definition freebsd_names_2 : list (Z * text) :=
  [number 181 "setgid"; number 182 "setegid"; number 183 "seteuid"; number 188 "stat"; number 189 "fstat";
   number 190 "lstat"; number 191 "pathconf"; number 192 "fpathconf"; number 194 "getrlimit"; number 195 "setrlimit";
   number 196 "getdirentries"; number 197 "freebsd6_mmap"; number 198 "__syscall"; number 199 "freebsd6_lseek";
   number 200 "freebsd6_truncate"; number 201 "freebsd6_ftruncate"; number 202 "__sysctl"; number 203 "mlock";
   number 204 "munlock"; number 205 "undelete"; number 206 "futimes"; number 207 "getpgid"; number 209 "poll";
   number 220 "__semctl"; number 221 "semget"; number 222 "semop"; number 224 "msgctl"; number 225 "msgget";
   number 226 "msgsnd"; number 227 "msgrcv"; number 228 "shmat"; number 229 "shmctl"; number 230 "shmdt";
   number 231 "shmget"; number 232 "clock_gettime"; number 233 "clock_settime"; number 234 "clock_getres";
   number 235 "ktimer_create"; number 236 "ktimer_delete"; number 237 "ktimer_settime"; number 238 "ktimer_gettime";
   number 239 "ktimer_getoverrun"; number 240 "nanosleep"; number 248 "ntp_gettime"; number 250 "minherit";
   number 251 "rfork"; number 252 "openbsd_poll"; number 253 "issetugid"; number 254 "lchown"; number 255 "aio_read";
   number 256 "aio_write"; number 257 "lio_listio"; number 272 "getdents"; number 274 "lchmod";
   number 275 "netbsd_lchown"; number 276 "lutimes"; number 277 "netbsd_msync"; number 278 "nstat";
   number 279 "nfstat"; number 280 "nlstat"]%string.
Definition freebsd_names_3 : list (Z * text) :=
  [number 289 "preadv"; number 290 "pwritev"; number 297 "freebsd4_fhstatfs"; number 298 "fhopen";
   number 299 "fhstat"; number 300 "modnext"; number 301 "modstat"; number 302 "modfnext"; number 303 "modfind";
   number 304 "kldload"; number 305 "kldunload"; number 306 "kldfind"; number 307 "kldnext"; number 308 "kldstat";
   number 309 "kldfirstmod"; number 310 "getsid"; number 311 "setresuid"; number 312 "setresgid";
   number 314 "aio_return"; number 315 "aio_suspend"; number 316 "aio_cancel"; number 317 "aio_error";
   number 318 "oaio_read"; number 319 "oaio_write"; number 320 "olio_listio"; number 321 "yield";
   number 324 "mlockall"; number 325 "munlockall"; number 326 "__getcwd"; number 327 "sched_setparam";
   number 328 "sched_getparam"; number 329 "sched_setscheduler"; number 330 "sched_getscheduler";
   number 331 "sched_yield"; number 332 "sched_get_priority_max"; number 333 "sched_get_priority_min";
   number 334 "sched_rr_get_interval"; number 335 "utrace"; number 336 "freebsd4_sendfile"; number 337 "kldsym";
   number 338 "jail"; number 340 "sigprocmask"; number 341 "sigsuspend"; number 342 "freebsd4_sigaction";
   number 343 "sigpending"; number 344 "freebsd4_sigreturn"; number 345 "sigtimedwait"; number 346 "sigwaitinfo";
   number 347 "__acl_get_file"; number 348 "__acl_set_file"; number 349 "__acl_get_fd"; number 350 "__acl_set_fd";
   number 351 "__acl_delete_file"; number 352 "__acl_delete_fd"; number 353 "__acl_aclcheck_file";
   number 354 "__acl_aclcheck_fd"; number 355 "extattrctl"; number 356 "extattr_set_file";
   number 357 "extattr_get_file"; number 358 "extattr_delete_file"]%string.
Definition freebsd_names_4 : list (Z * text) :=
  [number 359 "aio_waitcomplete"; number 360 "getresuid"; number 361 "getresgid"; number 362 "kqueue";
   number 363 "kevent"; number 371 "extattr_set_fd"; number 372 "extattr_get_fd"; number 373 "extattr_delete_fd";
   number 374 "__setugid"; number 375 "nfsclnt"; number 376 "eaccess"; number 378 "nmount"; number 379 "kse_exit";
   number 380 "kse_wakeup"; number 381 "kse_create"; number 382 "kse_thr_interrupt"; number 383 "kse_release";
   number 384 "__mac_get_proc"; number 385 "__mac_set_proc"; number 386 "__mac_get_fd"; number 387 "__mac_get_file";
   number 388 "__mac_set_fd"; number 389 "__mac_set_file"; number 390 "kenv"; number 391 "lchflags";
   number 392 "uuidgen"; number 393 "sendfile"; number 394 "mac_syscall"; number 395 "getfsstat";
   number 396 "statfs"; number 397 "fstatfs"; number 398 "fhstatfs"; number 400 "ksem_close"; number 401 "ksem_post";
   number 402 "ksem_wait"; number 403 "ksem_trywait"; number 404 "ksem_init"; number 405 "ksem_open";
   number 406 "ksem_unlink"; number 407 "ksem_getvalue"; number 408 "ksem_destroy"; number 409 "__mac_get_pid";
   number 410 "__mac_get_link"; number 411 "__mac_set_link"; number 412 "extattr_set_link";
   number 413 "extattr_get_link"; number 414 "extattr_delete_link"; number 415 "__mac_execve";
   number 416 "sigaction"; number 417 "sigreturn"; number 421 "getcontext"; number 422 "setcontext";
   number 423 "swapcontext"; number 424 "swapoff"; number 425 "__acl_get_link"; number 426 "__acl_set_link";
   number 427 "__acl_delete_link"; number 428 "__acl_aclcheck_link"; number 429 "sigwait"; number 430 "thr_create"]%string.
Definition freebsd_names_5 : list (Z * text) :=
  [number 431 "thr_exit"; number 432 "thr_self"; number 433 "thr_kill"; number 434 "_umtx_lock";
   number 435 "_umtx_unlock"; number 436 "jail_attach"; number 437 "extattr_list_fd"; number 438 "extattr_list_file";
   number 439 "extattr_list_link"; number 440 "kse_switchin"; number 441 "ksem_timedwait"; number 442 "thr_suspend";
   number 443 "thr_wake"; number 444 "kldunloadf"; number 445 "audit"; number 446 "auditon"; number 447 "getauid";
   number 448 "setauid"; number 449 "getaudit"; number 450 "setaudit"; number 451 "getaudit_addr";
   number 452 "setaudit_addr"; number 453 "auditctl"; number 454 "_umtx_op"; number 455 "thr_new";
   number 456 "sigqueue"; number 457 "kmq_open"; number 458 "kmq_setattr"; number 459 "kmq_timedreceive";
   number 460 "kmq_timedsend"; number 461 "kmq_notify"; number 462 "kmq_unlink"; number 463 "abort2";
   number 464 "thr_set_name"; number 465 "aio_fsync"; number 466 "rtprio_thread"; number 471 "sctp_peeloff";
   number 472 "sctp_generic_sendmsg"; number 473 "sctp_generic_sendmsg_iov"; number 474 "sctp_generic_recvmsg";
   number 475 "pread"; number 476 "pwrite"; number 477 "mmap"; number 478 "lseek"; number 479 "truncate";
   number 480 "ftruncate"; number 481 "thr_kill2"]%string.
Definition freebsd_names : list (Z * text) := freebsd_names_0 ++ freebsd_names_1 ++ freebsd_names_2 ++ freebsd_names_3 ++ freebsd_names_4 ++ freebsd_names_5.
(** ptrace/syscall/freebsd_syscall.py 403-409 *)
Definition freebsd_socket_names : list text :=
  [T "socket"; T "socketpair"; T "connect"; T "sendto"; T "recvfrom"; T "sendmsg"; T "recvmsg"; T "bind"; T "listen"; T "accept"; T "getpeername"; T "getsockname"; T "getsockopt"; T "setsockopt"; T "shutdown"].

(** ptrace/syscall/names.py 3-25; importing the module fails on Linux/ARM32 *)
Definition SYSCALL_NAMES (p : platform) : res (list (Z * text)) :=
  match p_os p with
  | Linux => match p_cpu p with
             | X86_64 => Ok x86_64_names
             | I386 => Ok i386_names
             | PPC64 => Ok powerpc64_names
             | PPC32 => Ok powerpc32_names
             | AARCH64 => Ok aarch64_names
             | RISCV32 => Ok riscv32_names
             | RISCV64 => Ok riscv64_names
             | _ => Err ENotImplementedError
             end
  | FreeBSD => Ok freebsd_names
  | _ => Ok []
  end.
Definition SOCKET_SYSCALL_NAMES (p : platform) : res (list text) :=
  match p_os p with
  | Linux => match p_cpu p with
             | X86_64 => Ok x86_64_socket_names
             | I386 => Ok i386_socket_names
             | PPC64 => Ok powerpc64_socket_names
             | PPC32 => Ok powerpc32_socket_names
             | AARCH64 => Ok aarch64_socket_names
             | RISCV32 => Ok riscv32_socket_names
             | RISCV64 => Ok riscv64_socket_names
             | _ => Err ENotImplementedError
             end
  | FreeBSD => Ok freebsd_socket_names
  | _ => Ok []
  end.

(** ptrace/syscall/socketcall_constants.py 3-21 *)
Definition SOCKETCALL : list (Z * text) :=
  [number 1 "socket"; number 2 "bind"; number 3 "connect"; number 4 "listen";
   number 5 "accept"; number 6 "getsockname"; number 7 "getpeername"; number 8 "socketpair"; number 9 "send"; number 10 "recv";
   number 11 "sendto"; number 12 "recvfrom"; number 13 "shutdown"; number 14 "setsockopt"; number 15 "getsockopt";
   number 16 "sendmsg"; number 17 "recvmsg"]%string.
(** ptrace/syscall/socketcall_constants.py 23-50 *)
Definition SOCKET_FAMILY : list (Z * text) :=
  [number 0 "AF_UNSPEC"; number 1 "AF_FILE"; number 2 "AF_INET"; number 3 "AF_AX25"; number 4 "AF_IPX";
   number 5 "AF_APPLETALK"; number 6 "AF_NETROM"; number 7 "AF_BRIDGE"; number 8 "AF_ATMPVC"; number 9 "AF_X25"; number 10 "AF_INET6";
   number 11 "AF_ROSE"; number 12 "AF_DECnet"; number 13 "AF_NETBEUI"; number 14 "AF_SECURITY"; number 15 "AF_KEY";
   number 16 "AF_NETLINK"; number 17 "AF_PACKET"; number 18 "AF_ASH"; number 19 "AF_ECONET"; number 20 "AF_ATMSVC"; number 22 "AF_SNA"; number 23 "AF_IRDA"; number 24 "AF_PPPOX"; number 25 "AF_WANPIPE"; number 31 "AF_BLUETOOTH"]%string.
(** ptrace/syscall/socketcall_constants.py 52-59 *)
Definition SOCKET_TYPE : list (Z * text) :=
  [number 1 "SOCK_STREAM"; number 2 "SOCK_DGRAM"; number 3 "SOCK_RAW"; number 4 "SOCK_RDM";
   number 5 "SOCK_SEQPACKET"; number 10 "SOCK_PACKET"]%string.
(** ptrace/syscall/socketcall_constants.py 76-79 *)
Definition SOCKET_PROTOCOL : list (Z * text) :=
  [number 1 "IPPROTO_ICMP"; number 58 "IPPROTO_ICMPV6"]%string.
(** ptrace/syscall/socketcall_constants.py 81-84 *)
Definition SETSOCKOPT_LEVEL : list (Z * text) :=
  [number 0 "SOL_IP"; number 1 "SOL_SOCKET"]%string.
(** ptrace/syscall/socketcall_constants.py 86-94 *)
Definition SETSOCKOPT_OPTNAME : list (Z * text) :=
  [number 1 "IP_TOS"; number 2 "SO_REUSEADDR"; number 9 "SO_KEEPALIVE"; number 20 "SO_RCVTIMEO"; number 21 "SO_SNDTIMEO"]%string.
(** ptrace/syscall/linux_constants.py 6-23 *)
Definition linux_RLIMIT_RESOURCE : list (Z * text) :=
  [number 0 "RLIMIT_CPU"; number 1 "RLIMIT_FSIZE"; number 2 "RLIMIT_DATA"; number 3 "RLIMIT_STACK"; number 4 "RLIMIT_CORE";
   number 5 "RLIMIT_RSS"; number 6 "RLIMIT_NPROC"; number 7 "RLIMIT_NOFILE"; number 8 "RLIMIT_MEMLOCK"; number 9 "RLIMIT_AS"; number 10 "RLIMIT_LOCKS";
   number 11 "RLIMIT_SIGPENDING"; number 12 "RLIMIT_MSGQUEUE"; number 13 "RLIMIT_NICE"; number 14 "RLIMIT_RTPRIO"; number 15 "RLIMIT_NLIMITS"]%string.
(** ptrace/syscall/linux_constants.py 25-25 *)
Definition linux_SIGPROCMASK_HOW : list (Z * text) :=
  [number 0 "SIG_BLOCK"; number 1 "SIG_UNBLOCK"; number 2 "SIG_SETMASK"]%string.
(** ptrace/syscall/freebsd_constants.py 3-15 *)
Definition freebsd_RLIMIT_RESOURCE : list (Z * text) :=
  [number 0 "RLIMIT_CPU"; number 1 "RLIMIT_FSIZE"; number 2 "RLIMIT_DATA"; number 3 "RLIMIT_STACK"; number 4 "RLIMIT_CORE";
   number 5 "RLIMIT_RSS"; number 6 "RLIMIT_MEMLOCK"; number 7 "RLIMIT_NPROC"; number 8 "RLIMIT_NOFILE"; number 9 "RLIMIT_SBSIZE"; number 10 "RLIMIT_VMEM"]%string.
(** ptrace/syscall/freebsd_constants.py 17-17 *)
Definition freebsd_SIGPROCMASK_HOW : list (Z * text) :=
  [number 1 " SIG_BLOCK"; number 2 "SIG_UNBLOCK"; number 3 "SIG_SETMASK"]%string.
(** ptrace/syscall/posix_constants.py 5-62: for a system call and an argument name, the names of the values *)
Local Definition args (syscall : string) (d : list (string * list (Z * text))) : text * list (text * list (Z * text)) :=
  (T syscall, map (fun e => (T (fst e), snd e)) d).
Definition POSIX_ARG_DICT : list (text * list (text * list (Z * text))) :=
  [args "lseek"
    [("origin", [number 0 "SEEK_SET"; number 1 "SEEK_CUR"; number 2 "SEEK_END"])];
   args "futex"
    [("op", [number 0 "FUTEX_WAIT"; number 1 "FUTEX_WAKE"; number 2 "FUTEX_FD"; number 3 "FUTEX_REQUEUE"; number 4 "FUTEX_CMP_REQUEUE"; number 5 "FUTEX_WAKE_OP"; number 6 "FUTEX_LOCK_PI"; number 7 "FUTEX_UNLOCK_PI"; number 8 "FUTEX_TRYLOCK_PI"])];
   args "fcntl"
    [("cmd", [number 0 "F_DUPFD"; number 1 "F_GETFD"; number 2 "F_SETFD"; number 3 "F_GETFL"; number 4 "F_SETFL"; number 5 "F_GETOWN"; number 6 "F_SETOWN"; number 7 "F_GETLK"; number 8 "F_SETLK"; number 9 "F_SETLKW"])];
   args "ipc"
    [("call", [number 1 "SEMOP"; number 2 "SEMGET"; number 3 "SEMCTL"; number 4 "SEMTIMEDOP"; number 11 "MSGSND"; number 12 "MSGRCV"; number 13 "MSGGET"; number 14 "MSGCTL"; number 21 "SHMAT"; number 22 "SHMDT"; number 23 "SHMGET"; number 24 "SHMCTL"])];
   args "socket"
    [("domain", SOCKET_FAMILY);
     ("protocol", SOCKET_PROTOCOL)];
   args "getsockopt"
    [("level", SETSOCKOPT_LEVEL);
     ("optname", SETSOCKOPT_OPTNAME)];
   args "setsockopt"
    [("level", SETSOCKOPT_LEVEL);
     ("optname", SETSOCKOPT_OPTNAME)]]%string.
(** ptrace/syscall/linux_constants.py 27-32, ptrace/syscall/freebsd_constants.py 19-24, ptrace/syscall/syscall_argument.py 20-27.
    The update() calls add new keys only. *)
Definition SYSCALL_ARG_DICT (p : platform) : list (text * list (text * list (Z * text))) :=
  match p_os p with
  | Linux => POSIX_ARG_DICT ++
      [args "getrlimit" [("resource", linux_RLIMIT_RESOURCE)]; args "setrlimit" [("resource", linux_RLIMIT_RESOURCE)];
       args "sigprocmask" [("how", linux_SIGPROCMASK_HOW)]; args "rt_sigprocmask" [("how", linux_SIGPROCMASK_HOW)]]%string
  | FreeBSD => POSIX_ARG_DICT ++
      [args "getrlimit" [("resource", freebsd_RLIMIT_RESOURCE)]; args "setrlimit" [("resource", freebsd_RLIMIT_RESOURCE)];
       args "sigprocmask" [("how", freebsd_SIGPROCMASK_HOW)]; args "rt_sigprocmask" [("how", freebsd_SIGPROCMASK_HOW)]]%string
  | _ => []
  end.
(** ptrace/syscall/linux_constants.py 4 *)
Definition FD_SETSIZE : Z := 1024.
(** ptrace/syscall/syscall_argument.py 60-63 *)
Definition INTEGER_TYPES : list text :=
  [T "int"; T "size_t"; T "clockid_t"; T "long"; T "socklen_t"; T "pid_t"; T "uid_t"; T "gid_t"].
(** ptrace/syscall/ptrace_syscall.py 47-51 *)
Definition PREFORMAT_ARGUMENTS : list (text * list nat) :=
  [(T "select", [1; 2; 3]%nat); (T "execve", [0; 1; 2]%nat); (T "clone", [0; 1]%nat)].
