(** * RegProps: C08, C09, C66, C67, CPU registers. *)
From Coq Require Import ZArith List Ascii String Bool.
From Verif Require Import PyBase Platform IntSpec StructModel RegModel RegSpec RegProofs RegFinal.
Import ListNotations.
Open Scope Z_scope.

(** ** C08 *)
Theorem c08_sub_register_partial : forall K p s name main lo w sz v,
  is_intel (p_cpu p) = true -> rk_get K = None -> whole p (r_regs s) ->
  In (name, (main, lo, w)) (intel_parts p) -> reg_holds p (r_regs s) main sz v ->
  exists s', getreg K p name s = (s', Ok (bits v lo w)) /\ r_regs s' = r_regs s.
Proof. exact get_part. Qed.
Print Assumptions c08_sub_register_partial.
Theorem c08_full_register : forall K p s name sz v,
  p_os p = Linux -> native p -> rk_get K = None -> whole p (r_regs s) -> reg_holds p (r_regs s) name sz v ->
  exists s', getreg K p name s = (s', Ok v) /\ r_regs s' = r_regs s.
Proof. exact get_full. Qed.
Print Assumptions c08_full_register.
(** no ptrace request is made for an unknown name *)
Theorem c08_unknown : forall K p name s,
  ~ In name (REGISTER_NAMES p) -> ~ In name (map fst (CPU_SUB_REGISTERS p)) ->
  getreg K p name s = (s, Err EProcessError).
Proof. exact get_unknown. Qed.
Print Assumptions c08_unknown.
Theorem c08_read_only : forall K p name s, r_regs (fst (getreg K p name s)) = r_regs s.
Proof. exact getreg_regs. Qed.
Print Assumptions c08_read_only.
(** eax of x86_64 is the upper half of rax *)
Theorem c08_eax_refuted : exists K p s sz v x,
  p = linux_x86_64 /\ whole p (r_regs s) /\ reg_holds p (r_regs s) (T "rax") sz v /\
  snd (getreg K p (T "eax") s) = Ok x /\ x <> bits v 0 32.
Proof. exact eax_wrong. Qed.
Print Assumptions c08_eax_refuted.
Theorem c08_iopl_refuted : exists K p s sz v x,
  p = linux_x86_64 /\ whole p (r_regs s) /\ reg_holds p (r_regs s) (T "eflags") sz v /\
  snd (getreg K p (T "iopl") s) = Ok x /\ x <> bits v 12 2.
Proof. exact iopl_wrong. Qed.
Print Assumptions c08_iopl_refuted.
(** on FreeBSD/amd64 the flags register is called rflags, so no flag can be read *)
Theorem c08_freebsd_flags : forall K s name lo w, In (name, (T "eflags", lo, w)) intel_flags ->
  getreg K freebsd_x86_64 name s = (s, Err EProcessError).
Proof. exact freebsd_flags. Qed.
Print Assumptions c08_freebsd_flags.
Example c08_ex :
  let s := with_reg linux_x86_64 (T "rbx") 0x1122334455667788 in
  whole linux_x86_64 (r_regs s) /\
  In (T "bh", (T "rbx", 8, 8)) (intel_parts linux_x86_64) /\
  reg_holds linux_x86_64 (r_regs s) (T "rbx") 8 0x1122334455667788 /\
  snd (getreg good_kernel linux_x86_64 (T "bh") s) = Ok 0x77 /\
  snd (getreg good_kernel linux_x86_64 (T "rbx") s) = Ok 0x1122334455667788 /\
  ~ In (T "xyz") (REGISTER_NAMES linux_x86_64).
Proof.
  cbv zeta. split; [vm_compute; reflexivity|]. split; [vm_compute; tauto|].
  split; [exists 40; split; [vm_compute; tauto|vm_compute; reflexivity]|].
  split; [vm_compute; reflexivity|]. split; [vm_compute; reflexivity|].
  rewrite <- name_in_spec. vm_compute. discriminate.
Qed.
(** offsets of the kernel's user_regs_struct (asm/user_64.h, asm/user_32.h) *)
Example c08_offsets :
  map (fun n => dget text_eqb n (layout 0 (register_fields linux_x86_64)))
      [T "rax"; T "orig_rax"; T "rip"; T "eflags"; T "rsp"; T "gs"] =
    [Some (80, 8); Some (120, 8); Some (128, 8); Some (144, 8); Some (152, 8); Some (208, 8)] /\
  map (fun n => dget text_eqb n (layout 0 (register_fields linux_i386)))
      [T "eax"; T "ds"; T "orig_eax"; T "eip"; T "eflags"; T "esp"; T "ss"] =
    [Some (24, 4); Some (28, 2); Some (44, 4); Some (48, 4); Some (56, 4); Some (60, 4); Some (64, 2)].
Proof. split; vm_compute; reflexivity. Qed.
(** On FreeBSD and Mac OS X with a PowerPC the registers are read word by word and joined as texts: no register can be read *)
Theorem c08_powerpc : forall K p name s, In (p_os p) [FreeBSD; MacOSX] -> In (p_cpu p) [PPC32; PPC64] ->
  (forall o, exists w, rk_peekuser K o = Ok w /\ 0 <= w < 2 ^ (8 * word_size p)) -> In name (REGISTER_NAMES p) ->
  exists s', getreg K p name s = (s', Err ETypeError) /\
    r_calls s' = rev (map (fun o => PeekUser (o * word_size p)) (zrange (Z.to_nat (76 / word_size p)))) ++ r_calls s.
Proof. exact powerpc_registers. Qed.
Print Assumptions c08_powerpc.
Example c08_powerpc_ex : let p := Platform FreeBSD PPC32 true false in In (p_os p) [FreeBSD; MacOSX] /\ In (p_cpu p) [PPC32; PPC64] /\ In (T "eip") (REGISTER_NAMES p) /\
  forall o, exists w, rk_peekuser (RKernel None (fun _ => None) (fun _ => Ok 5)) o = Ok w /\ 0 <= w < 2 ^ (8 * word_size p).
Proof.
  cbv zeta. split; [now left|]. split; [now left|]. split; [vm_compute; tauto|]. intros o. exists 5. split; [reflexivity|]. split; [discriminate|reflexivity].
Qed.
Theorem c08_no_overlap : forall p n o sz n' o' sz', n <> n' ->
  In (n, (o, sz)) (layout 0 (register_fields p)) -> In (n', (o', sz')) (layout 0 (register_fields p)) ->
  o + sz <= o' \/ o' + sz' <= o.
Proof. exact layout_no_overlap. Qed.
Print Assumptions c08_no_overlap.

(** ** C09 *)
Theorem c09_full_register : forall K p s name sz old v,
  p_os p = Linux -> native p -> rk_get K = None -> (forall r, rk_set K r = None) -> whole p (r_regs s) ->
  reg_holds p (r_regs s) name sz old ->
  exists s', setreg K p name v s = (s', Ok tt) /\
    snd (getreg K p name s') = Ok (v mod 2 ^ (8 * sz)) /\
    forall n sz' x, n <> name -> reg_holds p (r_regs s) n sz' x -> reg_holds p (r_regs s') n sz' x.
Proof. exact set_full. Qed.
Print Assumptions c09_full_register.
(** sub-registers at bit 0: al..dl, ax..dx, cf *)
Theorem c09_low_part_partial : forall K p s name main w sz old v,
  is_intel (p_cpu p) = true -> rk_get K = None -> (forall r, rk_set K r = None) -> whole p (r_regs s) ->
  In (name, (main, 0, w)) (intel_parts p) -> reg_holds p (r_regs s) main sz old ->
  exists s' new, setreg K p name v s = (s', Ok tt) /\
    snd (getreg K p name s') = Ok (v mod 2 ^ w) /\
    reg_holds p (r_regs s') main sz new /\ new / 2 ^ w = old / 2 ^ w /\
    forall n sz' x, n <> main -> reg_holds p (r_regs s) n sz' x -> reg_holds p (r_regs s') n sz' x.
Proof. exact set_low. Qed.
Print Assumptions c09_low_part_partial.
Theorem c09_failure : forall K p name v s s' e, setreg K p name v s = (s', Err e) -> r_regs s' = r_regs s.
Proof. exact set_fail. Qed.
Print Assumptions c09_failure.
(** sub-registers at other bits: wrong value stored, and the low bits are lost *)
Theorem c09_ah_refuted : exists K p s old v s' new x,
  p = linux_x86_64 /\ whole p (r_regs s) /\ reg_holds p (r_regs s) (T "rax") 8 old /\
  setreg K p (T "ah") v s = (s', Ok tt) /\ 0 <= v < 2 ^ 8 /\
  reg_holds p (r_regs s') (T "rax") 8 new /\
  snd (getreg K p (T "ah") s') = Ok x /\ x <> v /\ bits new 0 8 <> bits old 0 8.
Proof. exact ah_wrong. Qed.
Print Assumptions c09_ah_refuted.
Theorem c09_eax_type_error : forall K s v, rk_get K = None -> whole linux_x86_64 (r_regs s) ->
  exists s', setreg K linux_x86_64 (T "eax") v s = (s', Err ETypeError) /\ r_regs s' = r_regs s.
Proof. exact eax_set. Qed.
Print Assumptions c09_eax_type_error.
Example c09_ex :
  let s := with_reg linux_i386 (T "ecx") 0x11223344 in
  In (T "cx", (T "ecx", 0, 16)) (intel_parts linux_i386) /\
  snd (getreg good_kernel linux_i386 (T "ecx") (fst (setreg good_kernel linux_i386 (T "cx") (-2) s))) = Ok 0x1122fffe /\
  snd (getreg good_kernel linux_i386 (T "gs") (fst (setreg good_kernel linux_i386 (T "gs") 0x12345 s))) = Ok 0x2345.
Proof. cbv zeta. split; [vm_compute; tauto|]. split; vm_compute; reflexivity. Qed.

(** ** C66: instruction, stack and frame pointer *)
Theorem c66_pointers_partial : forall K p s,
  p_os p = Linux -> native p -> p_cpu p <> OtherCPU -> rk_get K = None -> whole p (r_regs s) ->
  (exists r sz v, arch_pc (p_cpu p) = Some r /\ reg_holds p (r_regs s) r sz v /\ snd (getInstrPointer K p s) = Ok v) /\
  (p_cpu p <> ARM32 ->
   exists r sz v, arch_sp (p_cpu p) = Some r /\ reg_holds p (r_regs s) r sz v /\ snd (getStackPointer K p s) = Ok v) /\
  (is_powerpc (p_cpu p) = false ->
   exists r sz v, arch_fp (p_cpu p) = Some r /\ reg_holds p (r_regs s) r sz v /\ snd (getFramePointer K p s) = Ok v).
Proof. exact pointers. Qed.
Print Assumptions c66_pointers_partial.
Theorem c66_set_instr_pointer : forall K p s v,
  p_os p = Linux -> native p -> p_cpu p <> OtherCPU -> rk_get K = None -> (forall r, rk_set K r = None) ->
  whole p (r_regs s) ->
  exists s' sz, setInstrPointer K p v s = (s', Ok tt) /\ snd (getInstrPointer K p s') = Ok (v mod 2 ^ (8 * sz)) /\
    sz = word_size p.
Proof. exact set_pc. Qed.
Print Assumptions c66_set_instr_pointer.
(** the stack pointer of 32-bit ARM is r13, not r14 *)
Theorem c66_arm_stack_pointer_refuted : exists K p s sz v,
  p = linux_arm32 /\ whole p (r_regs s) /\ arch_sp (p_cpu p) = Some (T "r13") /\
  reg_holds p (r_regs s) (T "r13") sz v /\ v <> 0 /\ snd (getStackPointer K p s) = Ok 0.
Proof. exact arm_sp. Qed.
Print Assumptions c66_arm_stack_pointer_refuted.
(** 32-bit Python on a 64-bit Intel kernel *)
Theorem c66_python32 : forall K s, getInstrPointer K (Platform Linux X86_64 false false) s = (s, Err EProcessError).
Proof. exact python32. Qed.
Print Assumptions c66_python32.
Example c66_ex : native linux_aarch64 /\
  snd (getInstrPointer good_kernel linux_aarch64 (with_reg linux_aarch64 (T "pc") 0x400123)) = Ok 0x400123.
Proof. split; vm_compute; reflexivity. Qed.

(** ** C67: dumpRegs *)
Theorem c67_dump : forall p s, whole p s ->
  exists lines, dumpRegs p s = Ok lines /\ List.length lines = List.length (REGISTER_NAMES p) /\
    forall i name, nth_error (REGISTER_NAMES p) i = Some name ->
      exists pad shown sz v, nth_error lines i = Some (repeat " "%char pad ++ name ++ T " = " ++ shown) /\
        reg_holds p s name sz v /\ hex_text shown v.
Proof. exact dumpRegs_lines. Qed.
Print Assumptions c67_dump.
Example c67_ex : match dumpRegs linux_i386 (r_regs (with_reg linux_i386 (T "eip") 0x8048000)) with
  | Ok l => nth_error l 16 = Some (T "     eip = 0x08048000") | Err _ => False end.
Proof. vm_compute. reflexivity. Qed.
(** An unknown processor: ProcessError *)
Theorem c66_unknown_cpu : forall K p s v, p_cpu p = OtherCPU ->
  setInstrPointer K p v s = (s, Err EProcessError) /\ getInstrPointer K p s = (s, Err EProcessError) /\ getStackPointer K p s = (s, Err EProcessError).
Proof. exact other_cpu_pointers. Qed.
Print Assumptions c66_unknown_cpu.
