(** * TabProps: C59, the system call tables (ptrace/syscall/prototypes.py, ptrace/syscall/names.py, ptrace/syscall/linux). *)
From Coq Require Import ZArith List Ascii String Bool Lia.
From Verif Require Import PyBase Platform TabModel TabSpec TabProofs.
Import ListNotations.
Open Scope Z_scope.

(** ** C59 *)

(** Every prototype, aliases included: result type "long", at most six arguments with distinct names and a type. *)
Theorem c59_prototypes : forall name restype formats, has_prototype name restype formats ->
  restype = T "long" /\ (List.length formats <= 6)%nat /\ NoDup (map snd formats) /\
  (forall ty nm, In (ty, nm) formats -> ty <> []).
Proof. exact prototypes_fine. Qed.
Print Assumptions c59_prototypes.
(** A system call has one prototype; an alias has the prototype of the original; no entry of the source is lost. *)
Theorem c59_unique : forall name r1 f1 r2 f2, has_prototype name r1 f1 -> has_prototype name r2 f2 -> r1 = r2 /\ f1 = f2.
Proof. exact prototypes_unique. Qed.
Print Assumptions c59_unique.
Theorem c59_aliases : forall orig copies copy r f, In (orig, copies) ALIASES -> In copy copies ->
  has_prototype orig r f -> has_prototype copy r f.
Proof. exact aliases_fine. Qed.
Print Assumptions c59_aliases.
Theorem c59_base : forall name r f, In (name, (r, f)) BASE_PROTOTYPES -> has_prototype name r f.
Proof. exact base_fine. Qed.
Print Assumptions c59_base.
Example c59_prototypes_ex :
  has_prototype (T "mmap2") (T "long")
    [(T "unsigned long", T "addr"); (T "unsigned long", T "len"); (T "unsigned long", T "prot"); (T "unsigned long", T "flags");
     (T "unsigned long", T "fd"); (T "unsigned long", T "pgoff")].
Proof. apply has_prototype_dget. vm_compute. reflexivity. Qed.

(** Every socket function of every architecture has a number there and a prototype. *)
Theorem c59_sockets : forall p table name, SOCKET_SYSCALL_NAMES p = Ok table -> In name table ->
  (exists n, has_number p n name) /\ exists r f, has_prototype name r f.
Proof. exact sock_fine. Qed.
Print Assumptions c59_sockets.
Example c59_sockets_ex : exists table, SOCKET_SYSCALL_NAMES linux_i386 = Ok table /\ In (T "socketcall") table /\
  has_number linux_i386 102 (T "socketcall").
Proof. eexists. split; [reflexivity|]. split; [left; reflexivity|]. apply number_of_spec. vm_compute. reflexivity. Qed.

(** A number has at most one name; only Linux on 32-bit ARM and unknown CPUs have no table (the import fails). *)
Theorem c59_numbers : forall p table, SYSCALL_NAMES p = Ok table -> NoDup (map fst table).
Proof. exact names_unique. Qed.
Print Assumptions c59_numbers.
Theorem c59_no_table : forall p e, SYSCALL_NAMES p = Err e <->
  e = ENotImplementedError /\ p_os p = Linux /\ (p_cpu p = ARM32 \/ p_cpu p = OtherCPU).
Proof. exact names_missing. Qed.
Print Assumptions c59_no_table.
Example c59_numbers_ex : exists table, SYSCALL_NAMES linux_x86_64 = Ok table /\ In (59, T "execve") table.
Proof.
  eexists. split; [reflexivity|].
  destruct (number_of_spec linux_x86_64 59 (T "execve")) as (t & [= <-] & H); [vm_compute; reflexivity|exact H].
Qed.

(** Preformatted argument positions exist. *)
Theorem c59_preformat : forall name indices i, In (name, indices) PREFORMAT_ARGUMENTS -> In i indices ->
  exists r f, has_prototype name r f /\ (i < List.length f)%nat.
Proof. exact preformat_fine. Qed.
Print Assumptions c59_preformat.
(** Every socketcall(2) function known by the library has a prototype. *)
Theorem c59_socketcall : forall n name, In (n, name) SOCKETCALL -> exists r f, has_prototype name r f.
Proof. exact socketcall_fine. Qed.
Print Assumptions c59_socketcall.
(** The number of descriptors is the first argument of every call with descriptor sets. *)
Theorem c59_fd_set : forall name r f ty nm, has_prototype name r f -> In (ty, nm) f -> ty = T "fd_set *" ->
  exists ty0 rest, f = (ty0, T "nfds") :: rest.
Proof. exact fd_set_fine. Qed.
Print Assumptions c59_fd_set.
Example c59_preformat_ex : In (T "execve", [0; 1; 2]%nat) PREFORMAT_ARGUMENTS /\ In 2%nat [0; 1; 2]%nat /\
  In (17, T "recvmsg") SOCKETCALL.
Proof. split; [right; left; reflexivity|]. split; [now right; right; left|]. unfold SOCKETCALL. cbn. intuition. Qed.

(** Seven system calls of 32-bit PowerPC (rt_sigsuspend among them) have the empty name. *)
Theorem c59_names_nonempty_refuted : exists p n, has_number p n [].
Proof. exact ppc32_empty. Qed.
Print Assumptions c59_names_nonempty_refuted.
