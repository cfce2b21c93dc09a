(** * ArgProps: calls and the texts of their arguments (C37 - C41, C61, C69, C70). *)
From Coq Require Import ZArith List Ascii String Bool.
From Verif Require Import PyBase Platform IntModel IntSpec IntProofs SigModel TabModel TabSpec TabProofs ArgModel ArgSpec ArgProofs ArgProofs2 ArgProofs3.
Import ListNotations.
Open Scope Z_scope.

(** ** C37: format() of a call *)
Theorem c37_format : forall p ns repr_fs opts v f f' t, format p ns repr_fs opts v f = Ok (f', t) ->
  exists texts kept, Forall2 (fun a x => getText p ns repr_fs opts v f a = Ok x) (f_args f) texts /\
    without_trailing_empty (map (fun ax => format_with opts (fst ax) (snd ax)) (combine (f_args f) texts)) kept /\
    t = (if truthy (f_restype f) && o_write_types opts then get (f_restype f) ++ T " " else []) ++
        f_name f ++ T "(" ++ join (T ", ") kept ++ T ")" /\
    f_name f' = f_name f /\ f_restype f' = f_restype f /\
    f_args f' = map (fun ax => Arg (a_value (fst ax)) (a_type (fst ax)) (a_name (fst ax)) (Some (snd ax))) (combine (f_args f) texts).
Proof. exact format_spec. Qed.
Print Assumptions c37_format.
(** Formatting never fails with a Python Exception. *)
Theorem c37_no_exception : forall p ns repr_fs opts v f e, format p ns repr_fs opts v f = Err e ->
  e = EKeyboardInterrupt \/ (exists code, e = ESystemExit code) \/ e = EUndefined \/ e = EDiverges.
Proof. exact format_fails_only. Qed.
Print Assumptions c37_no_exception.
(** The list without trailing empty texts is unique. *)
Theorem c37_kept_unique : forall l k1 k2, without_trailing_empty l k1 -> without_trailing_empty l k2 -> k1 = k2.
Proof. exact trailing_unique. Qed.
Print Assumptions c37_kept_unique.
(** Types and names of arguments. *)
Theorem c37_argument : forall opts a t,
  (forall nm ty, non_empty (a_name a) nm -> non_empty (a_type a) ty -> o_write_argname opts = true -> o_write_types opts = true ->
     format_with opts a t = ty ++ T " " ++ nm ++ T "=" ++ t) /\
  (forall nm, non_empty (a_name a) nm -> o_write_argname opts = true -> absent (a_type a) \/ o_write_types opts = false ->
     format_with opts a t = nm ++ T "=" ++ t) /\
  (forall ty, non_empty (a_type a) ty -> o_write_types opts = true -> absent (a_name a) \/ o_write_argname opts = false ->
     format_with opts a t = T "(" ++ ty ++ T ")" ++ t) /\
  (absent (a_name a) \/ o_write_argname opts = false -> absent (a_type a) \/ o_write_types opts = false ->
     format_with opts a t = t).
Proof. exact format_with_spec. Qed.
Print Assumptions c37_argument.
(** addArgument() appends. *)
Theorem c37_add : forall f value name type,
  f_name (addArgument f value name type) = f_name f /\ f_restype (addArgument f value name type) = f_restype f /\
  f_args (addArgument f value name type) = f_args f ++ [Arg value type name None].
Proof. exact add_spec. Qed.
Print Assumptions c37_add.
(** call[key] is the first argument of this name; KeyError exactly when there is none. *)
Theorem c37_key : forall key l,
  (forall a, find_arg key l = Ok a <->
     exists before after, l = before ++ a :: after /\ a_name a = Some key /\ Forall (fun b => a_name b <> Some key) before) /\
  (find_arg key l = Err EKeyError <-> Forall (fun b => a_name b <> Some key) l) /\
  (forall e, find_arg key l = Err e -> e = EKeyError).
Proof. exact find_arg_spec. Qed.
Print Assumptions c37_key.
(** A text computed before is shown again. *)
Theorem c37_cached : forall p ns repr_fs opts v f a t, non_empty (a_text a) t -> getText p ns repr_fs opts v f a = Ok t.
Proof. exact getText_cached. Qed.
Print Assumptions c37_cached.
(** Arguments without a type or a name are shown in hexadecimal. *)
Theorem c37_unnamed : forall p ns repr_fs opts v f a, absent (a_text a) -> absent (a_type a) \/ absent (a_name a) ->
  getText p ns repr_fs opts v f a = Ok (formatWordHex p (a_value a)).
Proof. exact unnamed_hex. Qed.
Print Assumptions c37_unnamed.
Definition ex_call : func :=
  Func (T "dup2") (Some (T "long")) [Arg 3 (Some (T "int")) (Some (T "old_fd")) None; Arg 0xfffffffe (Some (T "int")) (Some (T "new_fd")) None].
Example c37_ex : forall v, exists f', format linux_x86_64 no_names repr_ascii (Options true true true 300 false 20 false) v ex_call =
  Ok (f', T "long dup2(int old_fd=3, int new_fd=-2)").
Proof. intros v. eexists. vm_compute. reflexivity. Qed.
Example c37_kept_ex : without_trailing_empty [T "a"; []; T "b"; []; []] [T "a"; []; T "b"].
Proof. split; [now exists 2%nat|]. right. exists [T "a"; []], (T "b"). now split. Qed.
Example c37_key_ex : exists a, find_arg (T "new_fd") (f_args ex_call) = Ok a.
Proof. eexists. reflexivity. Qed.

(** ** C38: integers.  The number the kernel receives is shown exactly when it fits a signed 32-bit integer - or, for the
    types shown without conversion, when the register contains nothing but this number. *)
Theorem c38_integers_partial : forall p ns repr_fs opts v f a ty nm n,
  absent (a_text a) -> a_type a = Some ty -> a_name a = Some nm -> ordinary (f_name f) nm -> receives p ty (a_value a) n ->
  (raw_type ty -> (getText p ns repr_fs opts v f a = Ok (str_int n) <-> a_value a = n)) /\
  (~ raw_type ty -> (getText p ns repr_fs opts v f a = Ok (str_int n) <-> - 2 ^ 31 <= n < 2 ^ 31)).
Proof. exact integer_shown. Qed.
Print Assumptions c38_integers_partial.
(** int, pid_t, clockid_t: always. *)
Theorem c38_int : forall p ns repr_fs opts v f a ty nm n, In ty [T "int"; T "pid_t"; T "clockid_t"] ->
  absent (a_text a) -> a_type a = Some ty -> a_name a = Some nm -> ordinary (f_name f) nm -> receives p ty (a_value a) n ->
  getText p ns repr_fs opts v f a = Ok (str_int n).
Proof. exact int_shown. Qed.
Print Assumptions c38_int.
(** unsigned long: always, for register contents. *)
Theorem c38_ulong : forall p ns repr_fs opts v f a nm n,
  absent (a_text a) -> a_type a = Some (T "unsigned long") -> a_name a = Some nm -> ordinary (f_name f) nm ->
  0 <= a_value a < 2 ^ (8 * word_size p) -> receives p (T "unsigned long") (a_value a) n ->
  getText p ns repr_fs opts v f a = Ok (str_int n).
Proof. exact ulong_shown. Qed.
Print Assumptions c38_ulong.
(** A size of 2 GB is shown as a negative number; so is the user id -2; an unsigned int is shown with the meaningless upper
    half of the register. *)
Theorem c38_size_refuted : exists f a n, In a (f_args f) /\ has_prototype (f_name f) (T "long") [(T "unsigned long", T "addr"); (T "size_t", T "len")] /\
  a_type a = Some (T "size_t") /\ receives linux_x86_64 (T "size_t") (a_value a) n /\
  forall ns repr_fs opts v, getText linux_x86_64 ns repr_fs opts v f a <> Ok (str_int n).
Proof. exact size_witness. Qed.
Print Assumptions c38_size_refuted.
Theorem c38_uid_refuted : exists f a n, In a (f_args f) /\ has_prototype (f_name f) (T "long") [(T "uid_t", T "uid")] /\
  a_type a = Some (T "uid_t") /\ receives linux_x86_64 (T "uid_t") (a_value a) n /\
  forall ns repr_fs opts v, getText linux_x86_64 ns repr_fs opts v f a <> Ok (str_int n).
Proof. exact uid_witness. Qed.
Print Assumptions c38_uid_refuted.
Theorem c38_unsigned_refuted : exists f a n, In a (f_args f) /\ has_prototype (f_name f) (T "long") [(T "unsigned int", T "fildes")] /\
  a_type a = Some (T "unsigned int") /\ receives linux_x86_64 (T "unsigned int") (a_value a) n /\
  forall ns repr_fs opts v, getText linux_x86_64 ns repr_fs opts v f a <> Ok (str_int n).
Proof. exact unsigned_witness. Qed.
Print Assumptions c38_unsigned_refuted.
Example c38_ex : receives linux_x86_64 (T "int") 0xffffffff (-1) /\ ordinary (T "close") (T "fd") /\ ~ raw_type (T "int").
Proof.
  split; [exists true, 32; split; [reflexivity|]; split; [now exists 1|now split]|]. split; [|unfold raw_type; cbn; intuition discriminate].
  split; [discriminate|]. split; [discriminate|]. unfold treated_calls. cbn. intuition discriminate.
Qed.

(** ** C39: arrays of strings *)
(** NULL after less than max_array_count strings: all of them and NULL. *)
Theorem c39_terminated : forall p repr_fs opts v address ws ss,
  address <> 0 -> Forall (fun w => w <> 0) ws -> Forall2 (fun w s => readCString p repr_fs opts v w = Ok s) ws ss ->
  words_at p v address (ws ++ [0]) -> zlen ws < Z.max 1 (o_max_array_count opts) ->
  readCStringArray p repr_fs opts v address =
    Ok (formatPointer p opts (T "<(" ++ join (T ", ") (ss ++ [null_text opts]) ++ T ")>") address).
Proof. exact array_terminated. Qed.
Print Assumptions c39_terminated.
(** At least max_array_count strings: the first ones and the remark. *)
Theorem c39_many_partial : forall p repr_fs opts v address ws ss,
  address <> 0 -> Forall (fun w => w <> 0) ws -> Forall2 (fun w s => readCString p repr_fs opts v w = Ok s) ws ss ->
  words_at p v address ws -> zlen ws = Z.max 1 (o_max_array_count opts) ->
  readCStringArray p repr_fs opts v address =
    Ok (formatPointer p opts (T "<(" ++ join (T ", ") (ss ++ [more_text (o_max_array_count opts)]) ++ T ")>") address).
Proof. exact array_many. Qed.
Print Assumptions c39_many_partial.
(** Nothing behind the first max(1, max_array_count) words is looked at. *)
Theorem c39_bounded : forall p repr_fs opts v v' address,
  (forall a n, v_cstring v' a n = v_cstring v a n) ->
  (forall i, 0 <= i < Z.max 1 (o_max_array_count opts) -> v_word v' (address + i * word_size p) = v_word v (address + i * word_size p)) ->
  readCStringArray p repr_fs opts v' address = readCStringArray p repr_fs opts v address.
Proof. exact array_reads. Qed.
Print Assumptions c39_bounded.
(** The loop ends, whatever the memory contains. *)
Theorem c39_ends : forall p repr_fs opts v address,
  (forall a, v_word v a <> Err EDiverges) -> (forall a n, v_cstring v a n <> Err EDiverges) ->
  readCStringArray p repr_fs opts v address <> Err EDiverges.
Proof. exact array_ends. Qed.
Print Assumptions c39_ends.
Theorem c39_execve : forall p ns repr_fs opts v f a nm, f_name f = T "execve" -> a_name a = Some nm -> In nm [T "argv"; T "envp"] ->
  truthy (a_type a) = true -> absent (a_text a) ->
  forall t, readCStringArray p repr_fs opts v (a_value a) = Ok t -> getText p ns repr_fs opts v f a = Ok t.
Proof. exact execve_array. Qed.
Print Assumptions c39_execve.
(** Exactly N strings and NULL: the remark says there are more than N. *)
Theorem c39_more_refuted : exists opts v address ws ss, Forall (fun w => w <> 0) ws /\
  Forall2 (fun w s => readCString linux_i386 repr_ascii opts v w = Ok s) ws ss /\
  words_at linux_i386 v address (ws ++ [0]) /\ zlen ws = o_max_array_count opts /\
  readCStringArray linux_i386 repr_ascii opts v address =
    Ok (T "<(" ++ join (T ", ") (ss ++ [more_text (o_max_array_count opts)]) ++ T ")>").
Proof. exact more_witness. Qed.
Print Assumptions c39_more_refuted.
Example c39_ex : readCStringArray linux_i386 repr_ascii default_options (mem_view linux_i386 4096
    (map z2b [12; 16; 0; 0; 15; 16; 0; 0; 0; 0; 0; 0; 108; 115; 0; 45; 97; 0])) 4096 = Ok (T "<('ls', '-a', NULL)>").
Proof. vm_compute. reflexivity. Qed.

(** ** C40: socketcall(2) *)
Theorem c40_numbers : forall n name, n <= 17 -> (In (n, name) SOCKETCALL <-> In (n, name) net_h).
Proof. exact socketcall_numbers. Qed.
Print Assumptions c40_numbers.
Theorem c40_numbers_refuted : exists n name, In (n, name) net_h /\ ~ In n (map fst SOCKETCALL).
Proof. exact socketcall_missing. Qed.
Print Assumptions c40_numbers_refuted.
(** The call has the name and the result type of the socket function; its arguments are the successive words, with the types
    and names of the prototype. *)
Theorem c40_setup : forall p v name restype formats address ws,
  has_prototype name restype formats -> words_at p v address ws -> List.length ws = List.length formats ->
  setupSocketCall p v name address =
    Ok (Func name (Some restype) (map (fun fw => Arg (snd fw) (Some (fst (fst fw))) (Some (snd (fst fw))) None) (combine formats ws))).
Proof. exact setup_spec. Qed.
Print Assumptions c40_setup.
Theorem c40_setup_sound : forall p v name address f, setupSocketCall p v name address = Ok f ->
  exists restype formats, has_prototype name restype formats /\ f_name f = name /\ f_restype f = Some restype /\
    words_at p v address (map a_value (f_args f)) /\ List.length (f_args f) = List.length formats.
Proof. exact setup_sound. Qed.
Print Assumptions c40_setup_sound.
Theorem c40_first : forall p ns repr_fs opts v f a, f_name f = T "socketcall" -> a_name a = Some (T "call") ->
  truthy (a_type a) = true -> absent (a_text a) ->
  (forall name, In (a_value a, name) SOCKETCALL -> getText p ns repr_fs opts v f a = Ok name) /\
  (~ In (a_value a) (map fst SOCKETCALL) -> getText p ns repr_fs opts v f a = Ok (str_int (a_value a))).
Proof. exact socketcall_first. Qed.
Print Assumptions c40_first.
Example c40_ex : setupSocketCall linux_i386 (mem_view linux_i386 4096 (map z2b [3; 0; 0; 0; 5; 0; 0; 0])) (T "listen") 4096 =
  Ok (Func (T "listen") (Some (T "long")) [Arg 3 (Some (T "int")) (Some (T "sockfd")) None; Arg 5 (Some (T "int")) (Some (T "backlog")) None]).
Proof. vm_compute. reflexivity. Qed.

(** ** C41: socket addresses (little-endian processors) *)
Theorem c41_ipv4_linux_partial : forall p ns repr_fs opts v f a f0 f1 p0 p1 a0 a1 a2 a3, running_linux p = true -> p_bigendian p = false ->
  absent (a_text a) -> pointer_to a (T "struct sockaddr") -> untreated f a -> a_value a <> 0 ->
  host_value false [f0; f1] = 2 -> memory_at v (a_value a) [f0; f1; p0; p1; a0; a1; a2; a3] ->
  getText p ns repr_fs opts v f a = Ok (formatPointer p opts (T "<sockaddr_in sin_family=2, sin_port=" ++ str_int (big_endian_value [p0; p1]) ++
    T ", sin_addr=" ++ dotted [a0; a1; a2; a3] ++ T ">") (a_value a)).
Proof. exact ipv4_linux. Qed.
Print Assumptions c41_ipv4_linux_partial.
Theorem c41_ipv4_bsd_partial : forall p ns repr_fs opts v f a f0 f1 p0 p1 a0 a1 a2 a3, running_bsd p = true -> p_bigendian p = false ->
  absent (a_text a) -> pointer_to a (T "struct sockaddr") -> untreated f a -> a_value a <> 0 ->
  b2z f1 = 2 -> memory_at v (a_value a) [f0; f1; p0; p1; a0; a1; a2; a3] ->
  getText p ns repr_fs opts v f a = Ok (formatPointer p opts (T "<sockaddr_in sin_len=" ++ str_int (b2z f0) ++ T ", sin_family=2, sin_port=" ++
    str_int (big_endian_value [p0; p1]) ++ T ", sin_addr=" ++ dotted [a0; a1; a2; a3] ++ T ">") (a_value a)).
Proof. exact ipv4_bsd. Qed.
Print Assumptions c41_ipv4_bsd_partial.
Theorem c41_ipv6_linux_partial : forall p ns repr_fs opts v f a f0 f1 p0 p1 w0 w1 w2 w3 a0 a1 a2 a3 a4 a5 a6 a7 a8 a9 a10 a11 a12 a13 a14 a15 s0 s1 s2 s3,
  running_linux p = true -> p_bigendian p = false ->
  absent (a_text a) -> pointer_to a (T "struct sockaddr") -> untreated f a -> a_value a <> 0 ->
  host_value false [f0; f1] = 10 ->
  memory_at v (a_value a) [f0; f1; p0; p1; w0; w1; w2; w3; a0; a1; a2; a3; a4; a5; a6; a7; a8; a9; a10; a11; a12; a13; a14; a15; s0; s1; s2; s3] ->
  getText p ns repr_fs opts v f a = Ok (formatPointer p opts (T "<sockaddr_in6 sin6_family=10, sin6_port=" ++ str_int (big_endian_value [p0; p1]) ++
    T ", sin6_flowinfo=" ++ str_int (host_value false [w0; w1; w2; w3]) ++
    T ", sin6_addr=<in6_addr " ++ join (T ":") (groups [a0; a1; a2; a3; a4; a5; a6; a7; a8; a9; a10; a11; a12; a13; a14; a15]) ++
    T ">, sin6_scope_ip=" ++ str_int (host_value false [s0; s1; s2; s3]) ++ T ">") (a_value a)).
Proof. exact ipv6_linux. Qed.
Print Assumptions c41_ipv6_linux_partial.
(** On a big-endian processor port 80 of 10.0.0.1 is shown as port 20480 of 1.0.0.10. *)
Theorem c41_big_endian_refuted : exists v, memory_at v 4096 (map z2b [0; 2; 0; 80; 10; 0; 0; 1]) /\
  formatSockaddr linux_ppc64 default_options v 4096 = Ok (T "<sockaddr_in sin_family=2, sin_port=20480, sin_addr=1.0.0.10>").
Proof. exact big_endian_witness. Qed.
Print Assumptions c41_big_endian_refuted.
Definition ex_connect (addr : Z) : func :=
  Func (T "connect") (Some (T "long")) [Arg 3 (Some (T "int")) (Some (T "sockfd")) None;
    Arg addr (Some (T "const struct sockaddr *")) (Some (T "addr")) None; Arg 16 (Some (T "int")) (Some (T "addrlen")) None].
Example c41_ex : exists f', format linux_x86_64 no_names repr_ascii default_options
    (mem_view linux_x86_64 4096 (map z2b [2; 0; 0; 80; 10; 0; 0; 1])) (ex_connect 4096) =
  Ok (f', T "connect(3, <sockaddr_in sin_family=2, sin_port=80, sin_addr=10.0.0.1>, 16)").
Proof. eexists. vm_compute. reflexivity. Qed.
Example c41_hyp_ex : untreated (ex_connect 4096) (nth 1 (f_args (ex_connect 4096)) (Arg 0 None None None)) /\
  pointer_to (nth 1 (f_args (ex_connect 4096)) (Arg 0 None None None)) (T "struct sockaddr") /\
  exists v, memory_at v 4096 (map z2b [2; 0; 0; 80; 10; 0; 0; 1]).
Proof.
  split; [|split].
  - exists (T "addr"). repeat split; try discriminate. left. unfold treated_calls. cbn. intuition discriminate.
  - repeat split; [discriminate|]. now right.
  - exists (mem_view linux_x86_64 4096 (map z2b [2; 0; 0; 80; 10; 0; 0; 1])). apply mem_view_at.
Qed.

(** ** C61: sets of descriptors and signals (little-endian processors) *)
Theorem c61_fd_set_partial : forall p ns repr_fs opts v f a nfds bytes, running_linux p = true -> p_bigendian p = false ->
  absent (a_text a) -> pointer_to a (T "fd_set") -> untreated f a -> a_value a <> 0 ->
  f_args f = nfds :: tl (f_args f) -> memory_at v (a_value a) bytes -> zlen bytes = 128 ->
  exists l, getText p ns repr_fs opts v f a = Ok (formatPointer p opts (T "[" ++ join (T " ") (map str_int l) ++ T "]") (a_value a)) /\
    increasing l /\ (forall i, In i l <-> 0 <= i < 1024 /\ i < a_value nfds /\ bit_of p bytes i = true).
Proof. exact fd_set_text. Qed.
Print Assumptions c61_fd_set_partial.
Theorem c61_sigset_partial : forall p ns repr_fs opts v f a size bytes, p_bigendian p = false ->
  absent (a_text a) -> pointer_to a (T "sigset_t") -> untreated f a -> a_value a <> 0 ->
  f_name f = T "rt_sigprocmask" -> find_arg (T "sigsetsize") (f_args f) = Ok size -> 0 <= a_value size -> (word_size p | a_value size) ->
  memory_at v (a_value a) bytes -> zlen bytes = a_value size ->
  exists l, getText p ns repr_fs opts v f a = Ok (formatPointer p opts (T "<sigset=(" ++ join (T " ") (map (signalName ns) l) ++ T ")>") (a_value a)) /\
    increasing l /\ (forall i, In i l <-> 1 <= i <= 8 * a_value size /\ bit_of p bytes (i - 1) = true).
Proof. exact sigset_text. Qed.
Print Assumptions c61_sigset_partial.
(** On every machine, the list is that of the bits read byte after byte. *)
Theorem c61_bytes : forall bytes i, In i (set_indices 0 (iterBits bytes)) <->
  0 <= i < 8 * zlen bytes /\ Z.testbit (b2z (nth (Z.to_nat (i / 8)) bytes "000"%char)) (i mod 8) = true.
Proof. exact listed_In. Qed.
Print Assumptions c61_bytes.
(** On a big-endian 64-bit machine descriptor 0 is shown as descriptor 56. *)
Theorem c61_big_endian_refuted : exists v bytes f a, memory_at v (a_value a) bytes /\ zlen bytes = 128 /\
  pointer_to a (T "fd_set") /\ untreated f a /\ a_value a <> 0 /\ bit_of linux_ppc64 bytes 0 = true /\
  getText linux_ppc64 no_names repr_ascii default_options v f a = Ok (T "[56]").
Proof. exact fd_set_witness. Qed.
Print Assumptions c61_big_endian_refuted.
Definition ex_select (addr : Z) : func :=
  Func (T "select") (Some (T "long")) [Arg 10 (Some (T "int")) (Some (T "nfds")) None; Arg addr (Some (T "fd_set *")) (Some (T "readfds")) None;
    Arg 0 (Some (T "fd_set *")) (Some (T "writefds")) None].
Example c61_ex : exists f', format linux_x86_64 no_names repr_ascii default_options
    (mem_view linux_x86_64 4096 (map z2b [9; 14] ++ repeat (z2b 0) 126)) (ex_select 4096) = Ok (f', T "select(10, [0 3 9], NULL)").
Proof. eexists. vm_compute. reflexivity. Qed.
Example c61_hyp_ex : pointer_to (nth 1 (f_args (ex_select 4096)) (Arg 0 None None None)) (T "fd_set") /\
  untreated (ex_select 4096) (nth 1 (f_args (ex_select 4096)) (Arg 0 None None None)).
Proof.
  split; [repeat split; [discriminate|]; now left|]. exists (T "readfds"). repeat split; try discriminate. left. unfold treated_calls. cbn. intuition discriminate.
Qed.

(** ** C69: strings and pointers *)
Theorem c69_string : forall p ns repr_fs opts v f a nm data truncated,
  absent (a_text a) -> pointer_to a (T "char") -> untreated f a -> a_name a = Some nm -> In nm FILENAME_ARGUMENTS ->
  a_value a <> 0 -> v_cstring v (a_value a) (o_string_max_length opts) = Ok (data, truncated) ->
  getText p ns repr_fs opts v f a = Ok (formatPointer p opts (if truncated then repr_fs data ++ T "..." else repr_fs data) (a_value a)).
Proof. exact filename_shown. Qed.
Print Assumptions c69_string.
Theorem c69_string_null : forall p ns repr_fs opts v f a nm,
  absent (a_text a) -> pointer_to a (T "char") -> untreated f a -> a_name a = Some nm -> In nm FILENAME_ARGUMENTS ->
  a_value a = 0 -> getText p ns repr_fs opts v f a = Ok (null_text opts).
Proof. exact filename_null. Qed.
Print Assumptions c69_string_null.
(** Unreadable strings: the address, in decimal. *)
Theorem c69_string_unreadable : forall p ns repr_fs opts v f a nm e,
  absent (a_text a) -> pointer_to a (T "char") -> untreated f a -> a_name a = Some nm -> In nm FILENAME_ARGUMENTS ->
  a_value a <> 0 -> v_cstring v (a_value a) (o_string_max_length opts) = Err e -> is_exception e = true ->
  getText p ns repr_fs opts v f a = Ok (str_int (a_value a)).
Proof. exact filename_error. Qed.
Print Assumptions c69_string_unreadable.
(** Other unreadable targets: the address in hexadecimal. *)
Theorem c69_unreadable : forall p ns repr_fs opts v f a base e,
  absent (a_text a) -> pointer_to a base -> untreated f a -> (base <> T "char" \/ ~ In (get (a_name a)) FILENAME_ARGUMENTS) ->
  formatValuePointer p ns opts v f (a_value a) base = Err e -> is_exception e = true ->
  getText p ns repr_fs opts v f a = Ok (formatAddress p (a_value a)).
Proof. exact unreadable. Qed.
Print Assumptions c69_unreadable.
Theorem c69_null : forall p ns repr_fs opts v f a base,
  absent (a_text a) -> pointer_to a base -> untreated f a -> (base <> T "char" \/ ~ In (get (a_name a)) FILENAME_ARGUMENTS) ->
  a_value a = 0 -> getText p ns repr_fs opts v f a = Ok (T "NULL").
Proof. exact null_pointer. Qed.
Print Assumptions c69_null.
(** The data of write(): for the standard descriptors at most string_max_length bytes of it, "..." exactly when there is more;
    for others the address. *)
Theorem c69_write : forall p ns repr_fs opts v f fd buf count rest data, f_name f = T "write" -> f_args f = fd :: buf :: count :: rest ->
  absent (a_text buf) -> a_name buf = Some (T "buf") -> truthy (a_type buf) = true -> a_value fd < 3 -> a_value buf <> 0 ->
  v_bytes v (a_value buf) (Z.min (a_value count) (o_string_max_length opts)) = Ok data ->
  getText p ns repr_fs opts v f buf =
    Ok (formatPointer p opts (if o_string_max_length opts <? a_value count then repr_fs data ++ T "..." else repr_fs data) (a_value buf)).
Proof. exact write_text. Qed.
Print Assumptions c69_write.
Theorem c69_write_other : forall p ns repr_fs opts v f fd buf count rest, f_name f = T "write" -> f_args f = fd :: buf :: count :: rest ->
  absent (a_text buf) -> a_name buf = Some (T "buf") -> a_type buf = Some (T "const char *") -> 3 <= a_value fd -> a_value buf <> 0 ->
  getText p ns repr_fs opts v f buf = Ok (formatAddress p (a_value buf)).
Proof. exact write_other. Qed.
Print Assumptions c69_write_other.
(** The address is added when the option asks for it. *)
Theorem c69_address : forall p opts t a, 0 < a -> pointed p opts t a (formatPointer p opts t a).
Proof. exact formatPointer_spec. Qed.
Print Assumptions c69_address.
Example c69_ex : exists f' f2', format linux_x86_64 no_names repr_ascii default_options (mem_view linux_x86_64 4096 (T "/etc/passwd" ++ [z2b 0]))
    (Func (T "stat") None [Arg 4096 (Some (T "const char *")) (Some (T "filename")) None; Arg 0 (Some (T "struct stat *")) (Some (T "statbuf")) None]) =
    Ok (f', T "stat('/etc/passwd', NULL)") /\
  format linux_x86_64 no_names repr_ascii (Options false false true 3 true 20 false) (mem_view linux_x86_64 4096 (T "hello"))
    (Func (T "write") None [Arg 1 (Some (T "unsigned int")) (Some (T "fd")) None; Arg 4096 (Some (T "const char *")) (Some (T "buf")) None;
                            Arg 5 (Some (T "size_t")) (Some (T "count")) None]) =
    Ok (f2', T "write(1, 'hel'... at 0x0000000000001000, 5)").
Proof. eexists. eexists. split; vm_compute; reflexivity. Qed.

(** ** C70: structures of two longs (struct timeval, struct timespec, struct rlimit) *)
Theorem c70_two_longs_partial : forall p ns repr_fs opts v f a base n1 n2 w1 w2, running_linux p = true -> absent (a_text a) -> untreated f a ->
  In (base, (n1, n2)) [(T "timeval", (T "tv_sec", T "tv_usec")); (T "timespec", (T "tv_sec", T "tv_nsec")); (T "rlimit", (T "rlim_cur", T "rlim_max"))] ->
  pointer_to a (T "struct " ++ base) -> a_value a <> 0 ->
  zlen w1 = word_size p -> zlen w2 = word_size p -> memory_at v (a_value a) (w1 ++ w2) ->
  exists x1 x2, signed_of (wbits p) (host_value (p_bigendian p) w1) x1 /\ signed_of (wbits p) (host_value (p_bigendian p) w2) x2 /\
    getText p ns repr_fs opts v f a =
      Ok (formatPointer p opts (T "<" ++ base ++ T " " ++ n1 ++ T "=" ++ str_int x1 ++ T ", " ++ n2 ++ T "=" ++ str_int x2 ++ T ">") (a_value a)).
Proof. exact two_longs_arg. Qed.
Print Assumptions c70_two_longs_partial.
(** Limits are unsigned numbers for the kernel: the greatest one (RLIM_INFINITY) is shown as -1. *)
Theorem c70_rlimit_refuted : exists v, memory_at v 4096 (repeat (z2b 255) 16) /\ host_value false (repeat (z2b 255) 8) = 2 ^ 64 - 1 /\
  readStruct linux_x86_64 default_options v 4096 (T "rlimit") [(T "rlim_cur", CInt true 8); (T "rlim_max", CInt true 8)] =
    Ok (T "<rlimit rlim_cur=-1, rlim_max=-1>").
Proof. exact rlimit_witness. Qed.
Print Assumptions c70_rlimit_refuted.
Example c70_ex : exists f', format linux_i386 no_names repr_ascii default_options (mem_view linux_i386 4096 (map z2b [5; 0; 0; 0; 255; 255; 255; 255]))
    (Func (T "nanosleep") None [Arg 4096 (Some (T "struct timespec *")) (Some (T "rqtp")) None]) = Ok (f', T "nanosleep(<timespec tv_sec=5, tv_nsec=-1>)").
Proof. eexists. vm_compute. reflexivity. Qed.
