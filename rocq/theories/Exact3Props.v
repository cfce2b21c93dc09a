(** * Exact3Props: what is shown of sets on big-endian processors (C61). *)
From Coq Require Import ZArith List Ascii String.
From Verif Require Import PyBase Platform SigModel TabModel ArgModel ArgSpec ArgProofs ArgProofs3 ExactSpec3 ExactProofs3.
Import ListNotations.
Open Scope Z_scope.

(** The descriptors whose bits have been moved by reversing the bytes of each word *)
Theorem c61_fd_set_big_endian : forall p ns repr_fs opts v f a nfds bytes, running_linux p = true -> p_bigendian p = true ->
  absent (a_text a) -> pointer_to a (T "fd_set") -> untreated f a -> a_value a <> 0 ->
  f_args f = nfds :: tl (f_args f) -> memory_at v (a_value a) bytes -> zlen bytes = 128 ->
  exists l, getText p ns repr_fs opts v f a = Ok (formatPointer p opts (T "[" ++ join (T " ") (map str_int l) ++ T "]") (a_value a)) /\
    increasing l /\ (forall i, In i l <-> 0 <= i < 1024 /\ i < a_value nfds /\ bit_of p bytes (mirror p i) = true).
Proof. exact fd_set_big. Qed.
Print Assumptions c61_fd_set_big_endian.
Theorem c61_sigset_big_endian : forall p ns repr_fs opts v f a size bytes, p_bigendian p = true ->
  absent (a_text a) -> pointer_to a (T "sigset_t") -> untreated f a -> a_value a <> 0 ->
  f_name f = T "rt_sigprocmask" -> find_arg (T "sigsetsize") (f_args f) = Ok size -> 0 <= a_value size -> (word_size p | a_value size) ->
  memory_at v (a_value a) bytes -> zlen bytes = a_value size ->
  exists l, getText p ns repr_fs opts v f a = Ok (formatPointer p opts (T "<sigset=(" ++ join (T " ") (map (signalName ns) l) ++ T ")>") (a_value a)) /\
    increasing l /\ (forall i, In i l <-> 1 <= i <= 8 * a_value size /\ bit_of p bytes (mirror p (i - 1)) = true).
Proof. exact sigset_big. Qed.
Print Assumptions c61_sigset_big_endian.
(** Doing it twice changes nothing *)
Theorem c61_mirror : forall p i, 0 <= i -> mirror p (mirror p i) = i /\ 0 <= mirror p i.
Proof. exact mirror_mirror. Qed.
Print Assumptions c61_mirror.
Example c61_mirror_ex : p_bigendian linux_ppc64 = true /\ map (mirror linux_ppc64) [0; 7; 8; 63; 64; 127] = [56; 63; 48; 7; 120; 71].
Proof. split; reflexivity. Qed.
