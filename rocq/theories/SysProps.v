(** * SysProps: system calls (C34, C35, C36, C40). *)
From Coq Require Import ZArith List Ascii String Bool.
From Verif Require Import PyBase Platform IntModel IntSpec IntProofs RegModel RegSpec SigModel TabModel TabSpec TabProofs ArgModel ArgSpec ArgProofs3 DbgModel DbgSpec DbgFinal2 SysModel SysSpec SysProofs SysProofs2 SysProofs3 SysProofs4.
Import ListNotations.
Open Scope Z_scope.

(** ** C36: number, name and arguments *)
Theorem c36_number : forall p regs c, new_syscall p regs = Ok c ->
  regs (SYSCALL_REGISTER p) = Ok (c_number c) /\ f_args (c_func c) = [] /\ f_restype (c_func c) = Some (T "long") /\
  (forall name, has_number p (c_number c) name -> f_name (c_func c) = name) /\
  ((forall name, ~ has_number p (c_number c) name) -> f_name (c_func c) = T "syscall<" ++ str_int (c_number c) ++ T ">") /\
  c_result c = None /\ c_result_text c = None /\ c_instr_pointer c = None.
Proof. exact new_spec. Qed.
Print Assumptions c36_number.
Theorem c36_number_register : forall p, running_linux p = true -> forall r, abi_number (p_cpu p) = Some r -> SYSCALL_REGISTER p = r.
Proof. exact number_register. Qed.
Print Assumptions c36_number_register.
Theorem c36_number_register_bsd : forall p r, running_linux p = false -> bsd_number (p_cpu p) = Some r -> SYSCALL_REGISTER p = r.
Proof. exact bsd_register. Qed.
Print Assumptions c36_number_register_bsd.
Theorem c36_registers_exist : forall p r, p_os p = Linux -> native p -> p_cpu p <> OtherCPU ->
  (abi_number (p_cpu p) = Some r \/ In r (abi_arguments (p_cpu p)) \/ RETURN_VALUE_REGISTER p = Ok r) -> In r (REGISTER_NAMES p).
Proof. exact registers_exist. Qed.
Print Assumptions c36_registers_exist.
Theorem c36_known : forall p ns repr_fs opts v sp regs c c' restype formats, p_cpu p <> OtherCPU -> running_linux p = true \/ p_cpu p = X86_64 ->
  enter p ns repr_fs opts v sp regs c = Ok c' -> replaced opts (c_func c) = false -> f_args (c_func c) = [] -> has_prototype (f_name (c_func c)) restype formats ->
  exists values, Forall2 (fun name x => regs name = Ok x) (firstn (List.length formats) (abi_arguments (p_cpu p))) values /\
    List.length values = List.length formats /\ params (c_func c') = typed values formats /\
    f_name (c_func c') = f_name (c_func c) /\ f_restype (c_func c') = Some restype /\ c_number c' = c_number c.
Proof. exact known_spec. Qed.
Print Assumptions c36_known.
Theorem c36_unknown : forall p ns repr_fs opts v sp regs c c', p_cpu p <> OtherCPU -> running_linux p = true \/ p_cpu p = X86_64 ->
  enter p ns repr_fs opts v sp regs c = Ok c' -> replaced opts (c_func c) = false -> f_args (c_func c) = [] -> (forall r f, ~ has_prototype (f_name (c_func c)) r f) ->
  exists first rest, Forall2 (fun name x => regs name = Ok x) (abi_arguments (p_cpu p)) first /\
    params (c_func c') = map (fun x => (x, None, None)) (first ++ rest) /\ f_name (c_func c') = f_name (c_func c).
Proof. exact unknown_spec. Qed.
Print Assumptions c36_unknown.
(** BSD on i386: the words of the stack above the return address *)
Theorem c36_bsd_i386 : forall p ns repr_fs opts v sp regs c c' restype formats, p_cpu p = I386 -> running_bsd p = true ->
  enter p ns repr_fs opts v sp regs c = Ok c' -> replaced opts (c_func c) = false -> f_args (c_func c) = [] -> has_prototype (f_name (c_func c)) restype formats ->
  exists a values, sp = Ok a /\ words_at p v (a + word_size p) values /\
    List.length values = List.length formats /\ params (c_func c') = typed values formats /\ f_restype (c_func c') = Some restype.
Proof. exact bsd_i386_spec. Qed.
Print Assumptions c36_bsd_i386.
Example c36_ex : exists c c',
  new_syscall linux_x86_64 close_regs = Ok c /\ enter linux_x86_64 no_names repr_ascii default_options nowhere (Ok 0) close_regs c = Ok c' /\
  c_number c' = 3 /\ f_name (c_func c') = T "close" /\ params (c_func c') = [(7, Some (T "unsigned int"), Some (T "fd"))].
Proof. do 2 eexists. split; [vm_compute; reflexivity|]. split; [vm_compute; reflexivity|]. split; [reflexivity|]. split; vm_compute; reflexivity. Qed.
Example c36_unknown_ex :
  let regs := regs_of (combine (T "orig_rax" :: abi_arguments X86_64) [100000; 1; 2; 3; 4; 5; 6]) in exists c c',
  new_syscall linux_x86_64 regs = Ok c /\ enter linux_x86_64 no_names repr_ascii default_options nowhere (Ok 0) regs c = Ok c' /\
  f_name (c_func c') = T "syscall<100000>" /\ map a_value (f_args (c_func c')) = [1; 2; 3; 4; 5; 6].
Proof. cbv zeta. do 2 eexists. split; [vm_compute; reflexivity|]. split; [vm_compute; reflexivity|]. split; vm_compute; reflexivity. Qed.

(** ** C40: a socketcall is replaced by the call it stands for *)
Theorem c40_enter : forall p ns repr_fs opts v sp regs c c', enter p ns repr_fs opts v sp regs c = Ok c' -> replaced opts (c_func c) = true -> f_args (c_func c) = [] ->
  p_cpu p <> OtherCPU -> running_linux p = true ->
  exists number address name restype formats, regs (nth 0 (abi_arguments (p_cpu p)) []) = Ok number /\ regs (nth 1 (abi_arguments (p_cpu p)) []) = Ok address /\
    In (number, name) SOCKETCALL /\ has_prototype name restype formats /\ f_name (c_func c') = name /\ f_restype (c_func c') = Some restype /\
    words_at p v address (map a_value (f_args (c_func c'))) /\ params (c_func c') = typed (map a_value (f_args (c_func c'))) formats /\
    List.length (f_args (c_func c')) = List.length formats.
Proof. exact socketcall_replaced. Qed.
Print Assumptions c40_enter.
(** accept4 (18), recvmmsg (19) and sendmmsg (20) are missing: enter() raises KeyError, and the next stop is taken for an enter again *)
Theorem c40_enter_refuted : forall d, exists s', ss_event linux_i386 no_names repr_ascii ENOENT_only strerror_ex (scripted []) true None default_options 5 0%nat
    (Stop (Ok socketcall_regs) nowhere (Ok 0) (Ok 0)) (cleared, d) = ((s', d), Raise (XErr EKeyError)) /\ ss_exit s' = false /\
  has_number linux_i386 102 (T "socketcall") /\ In (18, T "accept4") net_h.
Proof. exact socketcall_raises. Qed.
Print Assumptions c40_enter_refuted.
Example c40_enter_ex :
  let regs := regs_of (combine (T "orig_eax" :: abi_arguments I386) [102; 3; 4096; 0; 0; 0; 0]) in
  let v := mem_view linux_i386 4096 (map z2b [7; 0; 0; 0; 0; 0; 0; 0; 16; 0; 0; 0]) in exists c c',
  new_syscall linux_i386 regs = Ok c /\ replaced default_options (c_func c) = true /\
  enter linux_i386 no_names repr_ascii default_options v (Ok 0) regs c = Ok c' /\
  f_name (c_func c') = T "connect" /\ map a_value (f_args (c_func c')) = [7; 0; 16].
Proof. cbv zeta. do 2 eexists. split; [vm_compute; reflexivity|]. split; [reflexivity|]. split; [vm_compute; reflexivity|]. split; vm_compute; reflexivity. Qed.

(** With the option instr_pointer the call remembers the address it was made from. *)
Theorem c36_instr_pointer : forall p ns repr_fs opts v sp regs c c', enter p ns repr_fs opts v sp regs c = Ok c' ->
  if o_instr_pointer opts then exists name ip, CPU_INSTR_POINTER p = Some name /\ regs name = Ok ip /\ c_instr_pointer c' = Some ip
  else c_instr_pointer c' = c_instr_pointer c.
Proof. exact enter_pointer. Qed.
Print Assumptions c36_instr_pointer.
Example c36_instr_pointer_ex : exists c c', let regs := regs_of (combine (T "rip" :: T "orig_rax" :: abi_arguments X86_64) [4194304; 39; 0; 0; 0; 0; 0; 0]) in
  new_syscall linux_x86_64 regs = Ok c /\ enter linux_x86_64 no_names repr_ascii (Options false false false 300 false 20 true) nowhere (Ok 0) regs c = Ok c' /\
  f_name (c_func c') = T "getpid" /\ c_instr_pointer c' = Some 4194304.
Proof. cbv zeta. do 2 eexists. split; [vm_compute; reflexivity|]. split; [vm_compute; reflexivity|]. split; vm_compute; reflexivity. Qed.

(** ** C35: results *)
Theorem c35_exit : forall p errorcode strerror c c' t r, exit_ p errorcode strerror (Ok r) c = Ok (c', t) ->
  c_result c' = Some (fst (result_text p errorcode strerror (get (f_restype (c_func c))) r)) /\
  t = snd (result_text p errorcode strerror (get (f_restype (c_func c))) r) /\ c_result_text c' = Some t.
Proof. exact exit_value. Qed.
Print Assumptions c35_exit.
Theorem c35_integer : forall p errorcode strerror restype r n, ends_with (T "*") restype = false -> signed_of (wbits p) r n ->
  fst (result_text p errorcode strerror restype r) = n /\
  (forall symbol, n < 0 -> dget Z.eqb (- n) errorcode = Some symbol ->
     snd (result_text p errorcode strerror restype r) = str_int n ++ T " " ++ symbol ++ T " (" ++ strerror (- n) ++ T ")") /\
  (0 <= n <= 9 -> snd (result_text p errorcode strerror restype r) = str_int n) /\
  (0 <= r -> (n < 0 /\ dget Z.eqb (- n) errorcode = None) \/ 9 < n ->
     exists hex, hex_text hex r /\ snd (result_text p errorcode strerror restype r) = str_int n ++ T " (" ++ hex ++ T ")").
Proof. exact result_spec. Qed.
Print Assumptions c35_integer.
Theorem c35_pointer : forall p errorcode strerror restype r, ends_with (T "*") restype = true -> 0 <= r ->
  fst (result_text p errorcode strerror restype r) = r /\
  (r = 0 -> snd (result_text p errorcode strerror restype r) = T "NULL") /\ (0 < r -> hex_text (snd (result_text p errorcode strerror restype r)) r).
Proof. exact result_pointer. Qed.
Print Assumptions c35_pointer.
(** All calls have the result type "long": the results of mmap, brk... are shown as integers. *)
Theorem c35_always_long : forall p ns repr_fs opts v sp regs c c',
  new_syscall p regs = Ok c -> enter p ns repr_fs opts v sp regs c = Ok c' -> running_linux p = true -> p_cpu p <> OtherCPU ->
  f_restype (c_func c') = Some (T "long").
Proof. exact enter_restype. Qed.
Print Assumptions c35_always_long.
Example c35_ex : let result restype r := result_text linux_x86_64 ENOENT_only strerror_ex (T restype) r in
  result "long"%string (2 ^ 64 - 2) = (-2, T "-2 ENOENT (No such file or directory)") /\ result "long"%string 9 = (9, T "9") /\
  result "long"%string 10 = (10, T "10 (0x000000000000000a)") /\ result "long"%string (2 ^ 64 - 3) = (-3, T "-3 (0xfffffffffffffffd)") /\
  result "void *"%string 0x7f0000001000 = (0x7f0000001000, T "0x00007f0000001000").
Proof. cbv zeta. repeat split; vm_compute; reflexivity. Qed.

(** ** C34: enter and exit alternate *)
Theorem c34_parity : forall p ns repr_fs errorcode strerror K trap ignore opts fuel id l d s' d' rs,
  run_inputs p ns repr_fs errorcode strerror K trap ignore opts fuel id l (cleared, d) = Some ((s', d'), rs) -> ss_exit s' = Nat.odd (since_clear l).
Proof. exact parity. Qed.
Print Assumptions c34_parity.
(** An entry that fails leaves the call without its arguments, and the next stop, the exit of the call, is taken for an entry. *)
Theorem c34_failed_enter : forall p ns repr_fs errorcode strerror K trap ignore opts fuel id st s d regs c e,
  ss_exit s = false -> st_regs st = Ok regs -> new_syscall p regs = Ok c -> (forall ignore', ignore = Some ignore' -> ignore' c = false) ->
  enter p ns repr_fs opts (st_view st) (st_sp st) regs c = Err e ->
  ss_event p ns repr_fs errorcode strerror K trap ignore opts fuel id st (s, d) = ((SState (Some c) (Some (f_name (c_func c))) false, d), Raise (XErr e)).
Proof. exact failed_enter. Qed.
Print Assumptions c34_failed_enter.
Theorem c34_pairs : forall p ns repr_fs errorcode strerror K trap ignore opts fuel id l a b d s' d' rs,
  Nat.even (since_clear l) = true ->
  run_inputs p ns repr_fs errorcode strerror K trap ignore opts fuel id (l ++ [IStop a; IStop b]) (cleared, d) = Some ((s', d'), rs) ->
  exists before r1 r2 regs c, rs = before ++ [r1; r2] /\ st_regs a = Ok regs /\ new_syscall p regs = Ok c /\
    (if ignored ignore c then r1 = None /\ r2 = None
     else exists c1 c2 t, r1 = Some c1 /\ r2 = Some c2 /\ enter p ns repr_fs opts (st_view a) (st_sp a) regs c = Ok c1 /\
            exit_ p errorcode strerror (st_result b) c1 = Ok (c2, t) /\ same_call c1 c2 /\ c_result c2 <> None).
Proof. exact pairs. Qed.
Print Assumptions c34_pairs.
Theorem c34_exec_trap : forall p ns repr_fs errorcode strerror K trap ignore opts fuel id l a b d s' d' rs d1 s1 rs1 regs c,
  Nat.even (since_clear l) = true ->
  run_inputs p ns repr_fs errorcode strerror K trap ignore opts fuel id l (cleared, d) = Some ((s1, d1), rs1) ->
  run_inputs p ns repr_fs errorcode strerror K trap ignore opts fuel id (l ++ [IStop a; IStop b]) (cleared, d) = Some ((s', d'), rs) ->
  st_regs a = Ok regs -> new_syscall p regs = Ok c ->
  (trap = true -> f_name (c_func c) = T "execve" -> d_trace_exec d1 = false -> skip_exec_trap p K fuel id d1 = (d', Ret tt)) /\
  (trap = false \/ f_name (c_func c) <> T "execve" \/ d_trace_exec d1 = true -> d' = d1).
Proof. exact exec_trap. Qed.
Print Assumptions c34_exec_trap.
Theorem c34_skip : forall p K fuel id d d' q, running_openbsd p = false -> nth_error (d_procs d) id = Some q -> skip_exec_trap p K fuel id d = (d', Ret tt) ->
  exists signum process,
    waitProcessEvent K p fuel (Some (pr_pid q)) true (with_stopped (add_call d (KSyscall id (pr_pid q) 0)) id false) =
      (d', Ret (Some (ProcessSignal signum process))) /\ (signum = 5 \/ signum = 133).
Proof. exact skip_spec. Qed.
Print Assumptions c34_skip.
(** When execve() fails there is no SIGTRAP, but a stop is skipped all the same: it is the enter of the next call. *)
Theorem c34_failed_exec_refuted : exists d s' d' c1 c2,
  reachable (scripted failed_exec) linux_x86_64 d /\ d_trace_exec d = false /\
  run_ex failed_exec [IStop (execve_stop 0); IStop (execve_stop (2 ^ 64 - 2))] (cleared, d) = Some ((s', d'), [Some c1; Some c2]) /\
  f_name (c_func c2) = T "execve" /\ c_result c2 = Some (-2) /\
  d_calls d' = [KWait 100 0; KSyscall 0 100 0] ++ d_calls d.
Proof. exact exec_failure_swallows. Qed.
Print Assumptions c34_failed_exec_refuted.
Example c34_ex :
  let l := [IStop (close_stop 0); IStop (close_stop 0); IStop (close_stop 0); IClear; IStop (close_stop 0); IStop (close_stop 9)] in
  since_clear l = 2%nat /\
  match run_ex [stop_by 19] l (cleared, one_process [stop_by 19]) with
  | Some (_, rs) => map (fun r => match r with Some c => c_result c | None => Some (-1) end) rs = [None; Some 0; None; None; Some 9]
  | None => False
  end.
Proof. cbv zeta. split; vm_compute; reflexivity. Qed.
