(** * CallArgProps: C118, the arguments of a system call when it returns. *)
From Coq Require Import ZArith List Ascii String Bool Lia.
From Verif Require Import PyBase Platform RegModel SigModel TabModel TabSpec ArgModel ArgSpec ArgProofs3 DbgModel SysModel SysSpec SysProofs SysProofs3 SysProofs4.
Import ListNotations.
Open Scope Z_scope.

(** exit(): values, types and names stay.  What is shown of an argument is forgotten exactly for pointers and arguments without a type, unless the call loses their data. *)
Theorem c118_exit : forall p errorcode strerror r c c' t, exit_ p errorcode strerror (Ok r) c = Ok (c', t) ->
  List.length (f_args (c_func c')) = List.length (f_args (c_func c)) /\
  forall i a, nth_error (f_args (c_func c)) i = Some a -> exists a', nth_error (f_args (c_func c')) i = Some a' /\
    (a_value a', a_type a', a_name a') = (a_value a, a_type a, a_name a) /\
    (In (f_name (c_func c), i) lost_arguments -> a_text a' = a_text a) /\
    (~ In (f_name (c_func c), i) lost_arguments -> is_pointer a \/ absent (a_type a) -> a_text a' = None) /\
    (~ is_pointer a -> ~ absent (a_type a) -> a_text a' = a_text a).
Proof. exact exit_arguments. Qed.
Print Assumptions c118_exit.
(** enter(): what the call is going to lose has its text already. *)
Theorem c118_enter : forall p ns repr_fs opts v sp regs c c', enter p ns repr_fs opts v sp regs c = Ok c' ->
  forall i, In (f_name (c_func c'), i) lost_arguments -> exists a t, nth_error (f_args (c_func c')) i = Some a /\ a_text a = Some t.
Proof. exact enter_texts. Qed.
Print Assumptions c118_enter.
(** "int[2]" does not end with an asterisk: the descriptors of pipe() are those read before the call if they were shown then (strace --enter). *)
Theorem c118_stale_refuted : exists c c1 f1 c2 t f2,
  new_syscall linux_x86_64 pipe_regs = Ok c /\ enter linux_x86_64 no_names repr_ascii default_options zeros8 (Ok 0) pipe_regs c = Ok c1 /\
  format linux_x86_64 no_names repr_ascii default_options zeros8 (c_func c1) = Ok (f1, T "pipe(<(0, 0)>)") /\
  exit_ linux_x86_64 ENOENT_only strerror_ex (Ok 0) (SyscallCall f1 (c_number c1) (c_result c1) (c_result_text c1) (c_instr_pointer c1)) = Ok (c2, t) /\
  memory_at pipe8 4096 (map z2b [3; 0; 0; 0; 4; 0; 0; 0]) /\
  format linux_x86_64 no_names repr_ascii default_options pipe8 (c_func c2) = Ok (f2, T "pipe(<(0, 0)>)") /\
  exists f3, format linux_x86_64 no_names repr_ascii default_options pipe8 (c_func c1) = Ok (f3, T "pipe(<(3, 4)>)").
Proof. exact stale_pipe. Qed.
Print Assumptions c118_stale_refuted.
(** chdir("/a") changed to "/b" meanwhile, and execve() *)
Example c118_ex :
  whole_call 80 [4096; 0; 0; 0; 0; 0] path_a path_b = Ok (T "chdir('/a')", T "chdir('/b')") /\
  whole_call 59 [4096; 0; 0; 0; 0; 0] path_a path_b = Ok (T "execve('/a', NULL, NULL)", T "execve('/a', NULL, NULL)").
Proof. split; vm_compute; reflexivity. Qed.
