(** * UseProps: C136 — the functions of the modules find the global names they read. *)
From Coq Require Import List Bool.
From Verif Require Import Platform ImpNames ImpModel ImpCode ImpSpec ImpProofs3 UseModel UseCode UseSpec UseProofs.
Import ListNotations.
Open Scope name_scope.

(** On Linux no function or method of an imported module raises NameError, whatever else has been imported, in whatever order. *)
Theorem c136_linux : forall h fuel l m fs f n, supported (h_platform h) = true -> p_os (h_platform h) = Linux -> enough fuel -> forallb (ours code) l = true -> In m l -> expected h m = IOk tt ->
  In (m, fs) functions -> In f fs ->
  let globals := names_of m (fst (import_all h code fuel l [])) in
  is_defined h globals f = true -> reads h globals n (b_parts f) -> has n globals = true.
Proof. exact linux_names. Qed.
Print Assumptions c136_linux.
(** On all supported platforms: exactly the names of [expected_missing] can be read without being there. *)
Theorem c136_exact : forall h fuel l m fs f n, supported (h_platform h) = true -> enough fuel -> forallb (ours code) l = true -> In m l -> expected h m = IOk tt ->
  In (m, fs) functions -> In f fs ->
  let globals := names_of m (fst (import_all h code fuel l [])) in
  is_defined h globals f = true ->
  (reads h globals n (b_parts f) /\ has n globals = false <-> In n (expected_missing (h_platform h) m (b_name f))).
Proof. exact exact_names. Qed.
Print Assumptions c136_exact.
(** A function is in its module exactly if one of its definitions has been executed. *)
Theorem c136_there : forall h fuel l m fs f, supported (h_platform h) = true -> enough fuel -> forallb (ours code) l = true -> In m l -> expected h m = IOk tt ->
  In (m, fs) functions -> In f fs -> b_method f = false ->
  let globals := names_of m (fst (import_all h code fuel l [])) in
  (has (b_name f) globals = true <-> defined_as h globals fs (b_name f)).
Proof. exact names_there. Qed.
Print Assumptions c136_there.
(** OpenBSD: ptrace_syscall() is there but can only raise NameError: PTRACE_SYSCALL is not defined. *)
Theorem c136_openbsd_refuted : exists h, supported (h_platform h) = true /\ forall fuel l, enough fuel -> forallb (ours code) l = true -> In "ptrace.binding.func" l ->
  let globals := names_of "ptrace.binding.func" (fst (import_all h code fuel l [])) in
  has "ptrace_syscall" globals = true /\ exists f, In f f_ptrace_binding_func /\ b_name f = "ptrace_syscall" /\ is_defined h globals f = true
    /\ reads h globals "PTRACE_SYSCALL" (b_parts f) /\ has "PTRACE_SYSCALL" globals = false.
Proof. exact (ex_intro _ openbsd_host (conj eq_refl openbsd_syscall)). Qed.
Print Assumptions c136_openbsd_refuted.

(** ptrace() of ptrace.binding.func: with and without the module cptrace it reads different names *)
Example c136_ex :
  let f := Body "ptrace" false [] [FIf (BName "HAS_CPTRACE") [FReads ["set_errno"; "_ptrace"; "get_errno"; "PtraceError"]] [FReads ["_ptrace"; "c_long"; "get_errno"; "PtraceError"; "strerror"]]] in
  In f f_ptrace_binding_func /\
  (let h := Host linux_x86_64 false true false in
   let globals := names_of "ptrace.binding.func" (fst (import_module h code 300 "ptrace.binding.func" [])) in
   is_defined h globals f = true /\ missing_in h globals f = [] /\ has "c_long" globals = false) /\
  (let h := Host linux_x86_64 false false false in
   let globals := names_of "ptrace.binding.func" (fst (import_module h code 300 "ptrace.binding.func" [])) in
   is_defined h globals f = true /\ missing_in h globals f = [] /\ has "c_long" globals = true /\ reads h globals "c_long" (b_parts f)).
Proof.
  split; [ cbv [f_ptrace_binding_func In]; tauto | ]. split; [ vm_compute; repeat split | ].
  split; [ vm_compute; reflexivity | ]. split; [ vm_compute; reflexivity | ]. split; [ vm_compute; reflexivity | ].
  apply reads_no; [ vm_compute; reflexivity | ]. apply reads_here. cbv [In]. tauto.
Qed.
