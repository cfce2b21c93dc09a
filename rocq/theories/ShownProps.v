(** * ShownProps: which decoder shows an argument (C127). *)
From Coq Require Import ZArith List Ascii String Bool.
From Verif Require Import PyBase Platform IntModel IntSpec SigModel TabModel TabSpec ToolsModel ArgModel ArgSpec ArgProofs3 ShownSpec ShownProofs.
Import ListNotations.
Open Scope Z_scope.

(** A constant of the tables is shown by its name. *)
Theorem c127_named : forall p ns repr_fs opts v f a name t, absent (a_text a) -> truthy (a_type a) = true -> a_name a = Some name ->
  named p (f_name f) name (a_value a) t -> getText p ns repr_fs opts v f a = Ok t.
Proof. exact named_shown. Qed.
Print Assumptions c127_named.
(** Flags, modes and descriptors are shown by the decoder of the argument. *)
Theorem c127_decoded : forall p ns repr_fs opts v f a name d, absent (a_text a) -> truthy (a_type a) = true -> a_name a = Some name ->
  In ((f_name f, name), d) (decoders p ns) -> (forall t, ~ named p (f_name f) name (a_value a) t) -> getText p ns repr_fs opts v f a = Ok (d (a_value a)).
Proof. exact decoded_shown. Qed.
Print Assumptions c127_decoded.
(** Arguments called "signum" are shown as names of signals, in every call. *)
Theorem c127_signal : forall p ns repr_fs opts v f a, absent (a_text a) -> truthy (a_type a) = true -> a_name a = Some (T "signum") ->
  getText p ns repr_fs opts v f a = Ok (signalName ns (a_value a)).
Proof. exact signal_shown. Qed.
Print Assumptions c127_signal.
(** Types of sockets: by name, the bit SOCK_CLOEXEC of the system added. *)
Theorem c127_socket_type : forall p n t, In (n, t) SOCKET_TYPE -> formatSocketType (SOCK_CLOEXEC p) n = t /\
  (forall c, cloexec_bit (p_os p) = Some c -> formatSocketType (SOCK_CLOEXEC p) (n + c) = t ++ T "|SOCK_CLOEXEC").
Proof. exact socket_type_text. Qed.
Print Assumptions c127_socket_type.
(** The other arguments are shown by their type: integers in decimal (of 32 bits with a sign, or the register as it is), *)
Theorem c127_integer : forall p ns repr_fs opts v f a ty s b, absent (a_text a) -> plain p f a -> has_type a ty -> c_int_type p ty = Some (s, b) ->
  (raw_type ty -> getText p ns repr_fs opts v f a = Ok (str_int (a_value a))) /\
  (~ raw_type ty -> forall n, signed_of 32 (a_value a) n -> getText p ns repr_fs opts v f a = Ok (str_int n)).
Proof. exact integer_shown_plain. Qed.
Print Assumptions c127_integer.
(** other scalar types as the hexadecimal word, *)
Theorem c127_word : forall p ns repr_fs opts v f a ty, absent (a_text a) -> plain p f a -> has_type a ty ->
  (forall b, ty <> b ++ T "*") -> ~ In "["%char ty -> c_int_type p ty = None -> 0 <= a_value a ->
  exists t, getText p ns repr_fs opts v f a = Ok t /\ hex_text t (a_value a) /\ (a_value a < 2 ^ (8 * word_size p) -> zlen t = 2 + 2 * word_size p).
Proof. exact word_shown. Qed.
Print Assumptions c127_word.
(** pointers to unknown types as the address, without any access to the memory, *)
Theorem c127_opaque : forall p ns repr_fs opts v f a base, absent (a_text a) -> plain p f a -> has_type a (base ++ T " *") -> strip base = base ->
  (base <> T "char" \/ ~ In (get (a_name a)) FILENAME_ARGUMENTS) -> ~ In base (shown_targets p (f_name f)) ->
  (forall s, base = T "struct " ++ s -> ~ In s (shown_targets p (f_name f))) ->
  0 < a_value a -> exists t, getText p ns repr_fs opts v f a = Ok t /\ hex_text t (a_value a).
Proof. exact opaque_shown. Qed.
Print Assumptions c127_opaque.
(** and so are pointers to memory which cannot be read, whatever they point to. *)
Theorem c127_unreadable : forall p ns repr_fs opts v f a b e, absent (a_text a) -> plain p f a -> has_type a (b ++ T "*") ->
  (b <> T "char " \/ ~ In (get (a_name a)) FILENAME_ARGUMENTS) -> 0 < a_value a ->
  (forall n, v_bytes v (a_value a) n = Err e) -> harmless e -> exists t, getText p ns repr_fs opts v f a = Ok t /\ hex_text t (a_value a).
Proof. exact unreadable_shown. Qed.
Print Assumptions c127_unreadable.
(** Every argument with a table or a decoder is an argument of the prototype of its call, with one exception. *)
Theorem c127_reached_partial : forall p call name, (exists value t, named p call name value t) \/ In (call, name) decoded_pairs ->
  (call, name) <> (T "lseek", T "origin") ->
  exists restype formats type, has_prototype call restype formats /\ In (type, name) formats /\ type <> [].
Proof. exact decoders_reached_but. Qed.
Print Assumptions c127_reached_partial.
(** lseek(): the prototype calls the argument "whence", so SEEK_END is shown as 2. *)
Theorem c127_lseek_refuted : exists type restype formats, has_prototype (T "lseek") restype formats /\ In (type, T "whence") formats /\
  named linux_x86_64 (T "lseek") (T "origin") 2 (T "SEEK_END") /\
  forall ns repr_fs opts v args restype', getText linux_x86_64 ns repr_fs opts v (Func (T "lseek") restype' args) (Arg 2 (Some type) (Some (T "whence")) None) = Ok (T "2").
Proof. exact lseek_witness. Qed.
Print Assumptions c127_lseek_refuted.
(** kill(), tkill() and tgkill(): the signal is called "sig" and shown as a number. *)
Theorem c127_kill_refuted : exists formats, has_prototype (T "kill") (T "long") formats /\ In (T "int", T "sig") formats /\
  forall ns repr_fs opts v args restype, getText linux_x86_64 ns repr_fs opts v (Func (T "kill") restype args) (Arg 9 (Some (T "int")) (Some (T "sig")) None) = Ok (T "9").
Proof. exact kill_witness. Qed.
Print Assumptions c127_kill_refuted.
(** A type with SOCK_NONBLOCK is shown as a number. *)
Theorem c127_nonblock_refuted : exists n, n = 1 + 2 ^ 11 /\ In (1, T "SOCK_STREAM") SOCKET_TYPE /\
  formatSocketType (SOCK_CLOEXEC linux_x86_64) n = T "2049".
Proof. exact nonblock_witness. Qed.
Print Assumptions c127_nonblock_refuted.
Definition ex_open : func := Func (T "openat") (Some (T "long")) [Arg 0xffffff9c (Some (T "int")) (Some (T "dirfd")) None;
  Arg 4096 (Some (T "const char *")) (Some (T "filename")) None; Arg 0x80041 (Some (T "int")) (Some (T "flags")) None; Arg 0x1a4 (Some (T "umode_t")) (Some (T "mode")) None].
Example c127_ex : (exists f', format linux_x86_64 no_names repr_ascii default_options (mem_view linux_x86_64 4096 (T "/tmp/x" ++ [z2b 0])) ex_open =
    Ok (f', T "openat(AT_FDCWD, '/tmp/x', O_WRONLY|O_CREAT|O_CLOEXEC (0o2000101), 0o644)")) /\
  (exists f', format linux_x86_64 [(T "SIGUSR1", 10)] repr_ascii default_options (mem_view linux_x86_64 4096 [])
    (Func (T "rt_sigaction") (Some (T "long")) [Arg 10 (Some (T "int")) (Some (T "signum")) None; Arg 8192 (Some (T "const struct sigaction *")) (Some (T "act")) None]) =
    Ok (f', T "rt_sigaction(SIGUSR1, 0x0000000000002000)")) /\
  (exists f', format linux_x86_64 no_names repr_ascii default_options (mem_view linux_x86_64 4096 [])
    (Func (T "socket") (Some (T "long")) [Arg 2 (Some (T "int")) (Some (T "domain")) None; Arg 0x80001 (Some (T "int")) (Some (T "type")) None; Arg 0 (Some (T "int")) (Some (T "protocol")) None]) =
    Ok (f', T "socket(AF_INET, SOCK_STREAM|SOCK_CLOEXEC, 0)")) /\
  named linux_x86_64 (T "socket") (T "domain") 2 (T "AF_INET") /\
  plain linux_x86_64 (Func (T "kill") None []) (Arg 9 (Some (T "int")) (Some (T "sig")) None).
Proof.
  split; [eexists; vm_compute; reflexivity|]. split; [eexists; vm_compute; reflexivity|]. split; [eexists; vm_compute; reflexivity|].
  split; [apply named_looked; vm_compute; reflexivity|]. exists (T "sig"). split; [reflexivity|]. split; [discriminate|]. split; [discriminate|].
  split; [unfold decoded_pairs; cbn [In]; intuition discriminate|]. intros t Hn. apply named_looked in Hn. discriminate Hn.
Qed.
