(** * ImpProps: C135 — every module can be imported, in every order, on every supported platform. *)
From Coq Require Import List Bool.
From Verif Require Import Platform ImpNames ImpModel ImpCode ImpSpec ImpProofs3.
Import ListNotations.
Open Scope name_scope.

(** Whatever modules of the project a program imports, and in whatever order: every import succeeds, except that of ptrace.pydistorm (OSError) where its
    library is missing. *)
Theorem c135_any_order : forall h fuel l, supported (h_platform h) = true -> enough fuel -> forallb (ours code) l = true ->
  snd (import_all h code fuel l []) = map (expected h) l.
Proof. exact any_order. Qed.
Print Assumptions c135_any_order.

(** A module has the same names (submodules aside) with the same values as if it had been imported alone. *)
Theorem c135_same_names : forall h fuel l m, supported (h_platform h) = true -> enough fuel -> forallb (ours code) l = true -> In m l -> expected h m = IOk tt ->
  has m (fst (import_all h code fuel l [])) = true
  /\ forall n, submodule m n code = None -> look n (names_of m (fst (import_all h code fuel l []))) = look n (names_of m (fst (import_module h code fuel m []))).
Proof. exact names_alone. Qed.
Print Assumptions c135_same_names.

(** The flags of the modules are those of the platform. *)
Theorem c135_flags : forall h fuel l m n b, supported (h_platform h) = true -> enough fuel -> forallb (ours code) l = true -> In m l -> In (m, n, b) (flags h) ->
  look n (names_of m (fst (import_all h code fuel l []))) = Some (VBool b).
Proof. exact flag_values. Qed.
Print Assumptions c135_flags.

(** The functions and classes of the packages are there, those of some platforms exactly there. *)
Theorem c135_exports : forall h fuel l m x n b, supported (h_platform h) = true -> enough fuel -> forallb (ours code) l = true -> In m l -> In (m, x, b) (exports h) -> In n x ->
  has n (names_of m (fst (import_all h code fuel l []))) = b.
Proof. exact export_names. Qed.
Print Assumptions c135_exports.

(** HAS_DISASSEMBLER: on an Intel CPU with distorm3 or the library of pydistorm *)
Theorem c135_disassembler : forall h fuel l, supported (h_platform h) = true -> enough fuel -> forallb (ours code) l = true -> In "ptrace.disasm" l ->
  look "HAS_DISASSEMBLER" (names_of "ptrace.disasm" (fst (import_all h code fuel l []))) = Some (VBool (with_disassembler h)).
Proof. exact disassembler_flag. Qed.
Print Assumptions c135_disassembler.

(** setup.py installs the packages of all modules, and nothing else. *)
Theorem c135_installed :
  (forall f, In f code -> match f_package f with Some p => In p setup_modules | None => In (f_name f) (setup_modules ++ setup_scripts ++ setup_examples) end)
  /\ (forall m, In m (setup_modules ++ setup_scripts ++ setup_examples) -> ours code m = true).
Proof. exact installed. Qed.
Print Assumptions c135_installed.

(** Linux on a 32-bit ARM CPU has registers, but neither the debugger nor the scripts can be imported. *)
Theorem c135_arm_refuted : exists h, p_os (h_platform h) = Linux /\ p_cpu (h_platform h) = ARM32
  /\ snd (import_module h code 300 "ptrace.binding.cpu" []) = IOk tt
  /\ (forall m, In m ["ptrace.syscall"; "ptrace.debugger"; "strace"; "gdb"] -> snd (import_module h code 300 m []) = IErr NotImplementedError_).
Proof. exact (ex_intro _ arm_host (conj eq_refl (conj eq_refl arm))). Qed.
Print Assumptions c135_arm_refuted.

(** gdb.py first, then a module in the middle of the debugger, then a library that is missing *)
Example c135_ex :
  let h := Host freebsd_x86_64 false false false in
  let r := import_all h code 300 ["gdb"; "ptrace.debugger.process"; "ptrace.pydistorm"; "ptrace.disasm"] [] in
  supported (h_platform h) = true /\ snd r = [IOk tt; IOk tt; IErr OSError_; IOk tt]
  /\ has "ptrace_io" (names_of "ptrace.binding" (fst r)) = true /\ has "ptrace_geteventmsg" (names_of "ptrace.binding" (fst r)) = false
  /\ look "HAS_DISASSEMBLER" (names_of "ptrace.disasm" (fst r)) = Some (VBool false)
  /\ has "ptrace.syscall.linux.i386" (fst r) = false.
Proof. vm_compute. repeat split. Qed.
(** The debugger can also be entered by one of its inner modules: the package is imported first. *)
Example c135_ex_inner :
  let r := import_module (Host linux_x86_64 true true true) code 300 "ptrace.debugger.ptrace_signal" [] in
  snd r = IOk tt /\ has "PtraceDebugger" (names_of "ptrace.debugger" (fst r)) = true
  /\ look "HAS_DISASSEMBLER" (names_of "ptrace.disasm" (fst r)) = Some (VBool true).
Proof. vm_compute. repeat split. Qed.
