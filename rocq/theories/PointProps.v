(** * PointProps: C117, what pointer arguments point to. *)
From Coq Require Import ZArith List Ascii String Bool.
From Verif Require Import PyBase Platform IntModel IntSpec SigModel TabModel ArgModel ArgSpec ArgProofs3 XraySpec PointSpec PointProofs.
Import ListNotations.
Open Scope Z_scope.

(** A pointer to a known structure: its name, then every member with its name and the value found at its place. *)
Theorem c117_struct : forall p ns repr_fs opts v f a name s data, In (name, s) (KNOWN_STRUCTS p) -> absent (a_text a) -> untreated f a ->
  (a_type a = Some (T "struct " ++ name ++ T " *") \/ a_type a = Some (T "const struct " ++ name ++ T " *")) -> a_value a <> 0 ->
  memory_at v (a_value a) data -> zlen data = struct_size s ->
  exists texts, getText p ns repr_fs opts v f a =
      Ok (formatPointer p opts (T "<" ++ name ++ T " " ++ join (T ", ") (map (fun nt => fst nt ++ T "=" ++ snd nt) (combine (map fst s) texts)) ++ T ">") (a_value a)) /\
    Forall2 (fun field t => member_shown (p_bigendian p) (snd (snd field)) (slice (fst (snd field)) (fst (snd field) + ct_size (snd (snd field))) data) t) (struct_layout 0 s) texts.
Proof. exact struct_arg. Qed.
Print Assumptions c117_struct.
Theorem c117_signs_partial : forall p name s f signed size, In (name, s) (KNOWN_STRUCTS p) -> name <> T "rlimit" -> In (f, CInt signed size) s ->
  (signed = true <-> In (name, f) signed_members).
Proof. exact signs. Qed.
Print Assumptions c117_signs_partial.
Theorem c117_sockaddr_signs : forall p s f signed size, In s [sockaddr p; sockaddr_in p; sockaddr_in6 p; sockaddr_un p; sockaddr_nl p] ->
  In (f, CInt signed size) s -> signed = false.
Proof. exact sockaddr_unsigned. Qed.
Print Assumptions c117_sockaddr_signs.
Example c117_struct_ex : exists f', format linux_x86_64 no_names repr_ascii default_options (mem_view linux_x86_64 4096 (map z2b [3; 0; 0; 0; 1; 0; 255; 255]))
    (Func (T "poll") None [Arg 4096 (Some (T "struct pollfd *")) (Some (T "ufds")) None]) = Ok (f', T "poll(<pollfd fd=3, events=1, revents=-1>)").
Proof. eexists. vm_compute. reflexivity. Qed.
(** Integers *)
Theorem c117_int : forall p ns repr_fs opts v f a w, absent (a_text a) -> pointer_to a (T "int") -> untreated f a -> a_value a <> 0 ->
  memory_at v (a_value a) w -> zlen w = 4 ->
  exists n, signed_of 32 (host_value (p_bigendian p) w) n /\ getText p ns repr_fs opts v f a = Ok (formatPointer p opts (T "<" ++ str_int n ++ T ">") (a_value a)).
Proof. exact int_arg. Qed.
Print Assumptions c117_int.
(** Arrays of integers: the number of elements is the last digit of the declared one *)
Theorem c117_array_partial : forall p ns repr_fs opts v f a n data, absent (a_text a) -> untreated f a ->
  a_type a = Some (T "int[" ++ str_int (Z.of_nat n) ++ T "]") -> memory_at v (a_value a) data -> zlen data = 4 * Z.of_nat (n mod 10) ->
  exists xs, getText p ns repr_fs opts v f a = Ok (formatPointer p opts (T "<(" ++ join (T ", ") (map str_int xs) ++ T ")>") (a_value a)) /\ List.length xs = (n mod 10)%nat /\
    forall i x, nth_error xs i = Some x -> signed_of 32 (host_value (p_bigendian p) (slice (4 * Z.of_nat i) (4 * Z.of_nat i + 4) data)) x.
Proof. exact array_arg. Qed.
Print Assumptions c117_array_partial.
Example c117_array_ex : exists f', format linux_x86_64 no_names repr_ascii default_options (mem_view linux_x86_64 4096 (map z2b [3; 0; 0; 0; 4; 0; 0; 0]))
    (Func (T "pipe") None [Arg 4096 (Some (T "int[2]")) (Some (T "fildes")) None]) = Ok (f', T "pipe(<(3, 4)>)").
Proof. eexists. vm_compute. reflexivity. Qed.
(** An array of ten integers is shown as if it were empty *)
Theorem c117_array_refuted : exists f', format linux_x86_64 no_names repr_ascii default_options (mem_view linux_x86_64 4096 (repeat (z2b 1) 40))
    (Func (T "f") None [Arg 4096 (Some (T "int[10]")) (Some (T "fildes")) None]) = Ok (f', T "f(<()>)").
Proof. eexists. vm_compute. reflexivity. Qed.
Print Assumptions c117_array_refuted.
(** The value of an option of four bytes; of others the address *)
Theorem c117_option : forall p ns repr_fs opts v f a l w, f_name f = T "setsockopt" -> a_name a = Some (T "optval") -> truthy (a_type a) = true -> absent (a_text a) ->
  find_arg (T "optlen") (f_args f) = Ok l -> a_value l = 4 -> memory_at v (a_value a) w -> zlen w = 4 ->
  exists n, signed_of 32 (host_value (p_bigendian p) w) n /\ getText p ns repr_fs opts v f a = Ok (formatPointer p opts (T "<" ++ str_int n ++ T ">") (a_value a)).
Proof. exact optval_text. Qed.
Print Assumptions c117_option.
Theorem c117_option_other : forall p ns repr_fs opts v f a l base, f_name f = T "setsockopt" -> a_name a = Some (T "optval") -> a_type a = Some (base ++ T "*") -> absent (a_text a) ->
  find_arg (T "optlen") (f_args f) = Ok l -> a_value l <> 4 -> getText p ns repr_fs opts v f a = Ok (formatAddress p (a_value a)).
Proof. exact optval_other. Qed.
Print Assumptions c117_option_other.
Example c117_option_ex : exists f', format linux_x86_64 no_names repr_ascii default_options (mem_view linux_x86_64 4096 (map z2b [1; 0; 0; 0]))
    (Func (T "setsockopt") None [Arg 3 (Some (T "int")) (Some (T "fd")) None; Arg 1 (Some (T "int")) (Some (T "level")) None; Arg 2 (Some (T "int")) (Some (T "optname")) None;
       Arg 4096 (Some (T "char *")) (Some (T "optval")) None; Arg 4 (Some (T "int")) (Some (T "optlen")) None]) = Ok (f', T "setsockopt(3, SOL_SOCKET, SO_REUSEADDR, <1>, 4)").
Proof. eexists. vm_compute. reflexivity. Qed.
(** Socket addresses of local and netlink sockets; of other families the name of the family, or its number *)
Theorem c117_sockaddr : forall p ns repr_fs opts v f a name s data n, running_linux p = true -> absent (a_text a) -> pointer_to a (T "struct sockaddr") -> untreated f a -> a_value a <> 0 ->
  In (n, (name, s)) [(1, (T "sockaddr_un", sockaddr_un p)); (16, (T "sockaddr_nl", sockaddr_nl p))] ->
  memory_at v (a_value a) data -> zlen data = struct_size s -> host_value (p_bigendian p) (firstn 2 data) = n ->
  exists texts, getText p ns repr_fs opts v f a =
      Ok (formatPointer p opts (T "<" ++ name ++ T " " ++ join (T ", ") (map (fun nt => fst nt ++ T "=" ++ snd nt) (combine (map fst s) texts)) ++ T ">") (a_value a)) /\
    Forall2 (fun field t => member_shown (p_bigendian p) (snd (snd field)) (slice (fst (snd field)) (fst (snd field) + ct_size (snd (snd field))) data) t) (struct_layout 0 s) texts.
Proof. exact family_struct. Qed.
Print Assumptions c117_sockaddr.
Theorem c117_sockaddr_other : forall p ns repr_fs opts v f a f0 f1 rest, running_linux p = true -> absent (a_text a) -> pointer_to a (T "struct sockaddr") -> untreated f a -> a_value a <> 0 ->
  memory_at v (a_value a) (f0 :: f1 :: rest) -> ~ In (host_value (p_bigendian p) [f0; f1]) [1; 2; 10; 16] ->
  (forall name, In (host_value (p_bigendian p) [f0; f1], name) SOCKET_FAMILY ->
    getText p ns repr_fs opts v f a = Ok (formatPointer p opts (T "<sockaddr family=" ++ name ++ T ">") (a_value a))) /\
  (~ In (host_value (p_bigendian p) [f0; f1]) (map fst SOCKET_FAMILY) ->
    getText p ns repr_fs opts v f a = Ok (formatPointer p opts (T "<sockaddr family=" ++ str_int (host_value (p_bigendian p) [f0; f1]) ++ T ">") (a_value a))).
Proof. exact family_other. Qed.
Print Assumptions c117_sockaddr_other.
Example c117_sockaddr_ex : exists f' f2', format linux_x86_64 no_names repr_ascii default_options (mem_view linux_x86_64 4096 (map z2b [1; 0] ++ T "/run/x" ++ repeat (z2b 0) 102))
    (Func (T "bind") None [Arg 4096 (Some (T "struct sockaddr *")) (Some (T "addr")) None]) = Ok (f', T "bind(<sockaddr_un sun_family=1, sun_path=b'/run/x'>)") /\
  format linux_x86_64 no_names repr_ascii default_options (mem_view linux_x86_64 4096 (map z2b [17; 0]))
    (Func (T "bind") None [Arg 4096 (Some (T "struct sockaddr *")) (Some (T "addr")) None]) = Ok (f2', T "bind(<sockaddr family=AF_PACKET>)").
Proof. eexists. eexists. split; vm_compute; reflexivity. Qed.
(** Byte strings are shown as literals that denote them. *)
Theorem c117_bytes : forall s, bytes_literal s (repr_bytes s).
Proof. exact repr_literal. Qed.
Print Assumptions c117_bytes.
(** Without arrays, and without options *)
Theorem c117_no_array : forall p repr_fs opts v, readCStringArray p repr_fs opts v 0 = Ok (T "NULL").
Proof. exact array_null. Qed.
Print Assumptions c117_no_array.
Theorem c117_defaults : (forall a t, format_with default_options a t = t) /\ (forall p t a, formatPointer p default_options t a = t) /\
  o_string_max_length default_options = 300 /\ o_max_array_count default_options = 20 /\ o_replace_socketcall default_options = true /\ o_instr_pointer default_options = false.
Proof. exact defaults. Qed.
Print Assumptions c117_defaults.
Example c117_bytes_ex : bytes_literal [z2b 0; "'"%char] (T "b""\x00'""").
Proof. apply (repr_literal [z2b 0; "'"%char]). Qed.
