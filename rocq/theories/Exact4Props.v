(** * Exact4Props: exact conditions for the event message (C65), limits (C70) and addresses (C41). *)
From Coq Require Import ZArith List Ascii String.
From Verif Require Import PyBase Platform IntModel IntSpec CallModel SigModel TabModel TabSpec TabProofs ArgModel ArgSpec ArgProofs ArgProofs2 ArgProofs3 IntProofs ExactProofs4.
Import ListNotations.
Open Scope Z_scope.

(** ** C65: on 64-bit big-endian processors the pid of a new process is always read as 0; it is right everywhere else. *)
Theorem c65_event_pid_exact : forall p pid, 0 <= pid < 2 ^ 31 ->
  (p_bigendian p = true -> p_64bits p = true -> geteventmsg_value p pid = Ok 0) /\
  (geteventmsg_value p pid = Ok pid <-> p_bigendian p = false \/ p_64bits p = false \/ pid = 0).
Proof. exact eventmsg_exact. Qed.
Print Assumptions c65_event_pid_exact.
Example c65_event_pid_exact_ex : p_bigendian linux_ppc64 = true /\ p_64bits linux_ppc64 = true /\ 0 <= 4242 < 2 ^ 31.
Proof. repeat split. discriminate. Qed.

(** ** C70: a limit is shown right if and only if it is below half of the range of a word; otherwise the size of the range is subtracted. *)
Theorem c70_rlimit_exact : forall p ns repr_fs opts v f a w1 w2, running_linux p = true -> absent (a_text a) -> untreated f a ->
  pointer_to a (T "struct rlimit") -> a_value a <> 0 ->
  zlen w1 = word_size p -> zlen w2 = word_size p -> memory_at v (a_value a) (w1 ++ w2) ->
  exists x1 x2, getText p ns repr_fs opts v f a = Ok (formatPointer p opts (T "<rlimit rlim_cur=" ++ str_int x1 ++ T ", rlim_max=" ++ str_int x2 ++ T ">") (a_value a)) /\
    forall w x, In (w, x) [(w1, x1); (w2, x2)] -> let limit := host_value (p_bigendian p) w in (x = limit <-> limit < 2 ^ (wbits p - 1)) /\ (x <> limit -> x = limit - 2 ^ wbits p).
Proof. exact limit_exact. Qed.
Print Assumptions c70_rlimit_exact.
Example c70_rlimit_exact_ex : exists f', format linux_i386 no_names repr_ascii default_options (mem_view linux_i386 4096 (map z2b [0; 32; 0; 0; 254; 255; 255; 255]))
    (Func (T "setrlimit") None [Arg 4096 (Some (T "struct rlimit *")) (Some (T "rlim")) None]) = Ok (f', T "setrlimit(<rlimit rlim_cur=8192, rlim_max=-2>)").
Proof. eexists. vm_compute. reflexivity. Qed.

(** ** C41: on big-endian processors the bytes of the port and those of the address are shown in the reverse order. *)
Theorem c41_ipv4_big_endian : forall p ns repr_fs opts v f a f0 f1 p0 p1 a0 a1 a2 a3, running_linux p = true -> p_bigendian p = true ->
  absent (a_text a) -> pointer_to a (T "struct sockaddr") -> untreated f a -> a_value a <> 0 ->
  host_value true [f0; f1] = 2 -> memory_at v (a_value a) [f0; f1; p0; p1; a0; a1; a2; a3] ->
  getText p ns repr_fs opts v f a = Ok (formatPointer p opts (T "<sockaddr_in sin_family=2, sin_port=" ++ str_int (big_endian_value [p1; p0]) ++
    T ", sin_addr=" ++ dotted [a3; a2; a1; a0] ++ T ">") (a_value a)).
Proof. exact ipv4_big. Qed.
Print Assumptions c41_ipv4_big_endian.
Example c41_ipv4_big_endian_ex : host_value true (map z2b [0; 2]) = 2 /\ exists f', format linux_ppc64 no_names repr_ascii default_options (mem_view linux_ppc64 4096 (map z2b [0; 2; 0; 80; 10; 0; 0; 1]))
    (Func (T "connect") None [Arg 4096 (Some (T "const struct sockaddr *")) (Some (T "addr")) None]) = Ok (f', T "connect(<sockaddr_in sin_family=2, sin_port=20480, sin_addr=1.0.0.10>)").
Proof. split; [reflexivity|]. eexists. vm_compute. reflexivity. Qed.
