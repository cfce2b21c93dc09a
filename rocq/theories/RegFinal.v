From Coq Require Import ZArith List Ascii String Bool Lia.
From Verif Require Import PyBase PyFacts Platform IntModel IntSpec IntProofs StructModel StructProofs RegModel RegSpec RegProofs.
Import ListNotations.
Open Scope Z_scope.

(** Registers all zero but one. *)
Definition zeros (p : platform) : list byte := repeat (z2b 0) (Z.to_nat (sizeof (register_fields p))).
Definition with_reg (p : platform) (name : text) (v : Z) : rstate :=
  RState (match set_field (p_bigendian p) (register_fields p) (zeros p) name v with Ok s => s | Err _ => [] end) [].
Definition good_kernel : rkernel := RKernel None (fun _ => None) (fun _ => Ok 0).

Lemma get_part K p s name main lo w sz v :
  is_intel (p_cpu p) = true -> rk_get K = None -> whole p (r_regs s) ->
  In (name, (main, lo, w)) (intel_parts p) -> reg_holds p (r_regs s) main sz v ->
  exists s', getreg K p name s = (s', Ok (bits v lo w)) /\ r_regs s' = r_regs s.
Proof.
  intros Hi Hk Hw Hin Hh. eexists. split; [apply (getreg_part K p s name main lo w sz v); auto using intel_readable|].
  reflexivity.
Qed.
Lemma get_full K p s name sz v :
  p_os p = Linux -> native p -> rk_get K = None -> whole p (r_regs s) -> reg_holds p (r_regs s) name sz v ->
  exists s', getreg K p name s = (s', Ok v) /\ r_regs s' = r_regs s.
Proof.
  intros Ho Hn Hk Hw Hh. eexists. split.
  - apply (getreg_full K p s name sz v); auto using linux_readable.
    apply full_not_sub; [now apply native_sane|]. apply name_in_spec. eapply holds_name; eauto.
  - reflexivity.
Qed.
Lemma get_unknown K p name s :
  ~ In name (REGISTER_NAMES p) -> ~ In name (map fst (CPU_SUB_REGISTERS p)) ->
  getreg K p name s = (s, Err EProcessError).
Proof.
  intros H1 H2. apply getreg_unknown; auto. intros m sh k E. apply dget_In in E; [|apply text_eqb_eq].
  exfalso. apply H2. apply in_map_iff. exists (name, (m, sh, k)). auto.
Qed.
Lemma eax_wrong : exists K p s sz v x,
  p = linux_x86_64 /\ whole p (r_regs s) /\ reg_holds p (r_regs s) (T "rax") sz v /\
  snd (getreg K p (T "eax") s) = Ok x /\ x <> bits v 0 32.
Proof.
  exists good_kernel, linux_x86_64, (with_reg linux_x86_64 (T "rax") 5), 8, 5, 0.
  split; [reflexivity|]. split; [vm_compute; reflexivity|].
  split; [exists 80; split; [vm_compute; tauto|vm_compute; reflexivity]|].
  split; [vm_compute; reflexivity|vm_compute; discriminate].
Qed.
Lemma iopl_wrong : exists K p s sz v x,
  p = linux_x86_64 /\ whole p (r_regs s) /\ reg_holds p (r_regs s) (T "eflags") sz v /\
  snd (getreg K p (T "iopl") s) = Ok x /\ x <> bits v 12 2.
Proof.
  exists good_kernel, linux_x86_64, (with_reg linux_x86_64 (T "eflags") 0x3202), 8, 0x3202, 2.
  split; [reflexivity|]. split; [vm_compute; reflexivity|].
  split; [exists 144; split; [vm_compute; tauto|vm_compute; reflexivity]|].
  split; [vm_compute; reflexivity|vm_compute; discriminate].
Qed.
Lemma freebsd_flags : forall K s name lo w, In (name, (T "eflags", lo, w)) intel_flags ->
  getreg K freebsd_x86_64 name s = (s, Err EProcessError).
Proof.
  intros K s name lo w H. apply getreg_unknown.
  - intros m sh k E.
    assert (m = T "eflags") as ->.
    { cbn in H. repeat destruct H as [H|H]; try contradiction; injection H as <- <- <-; vm_compute in E; injection E as <- <- <-; reflexivity. }
    rewrite <- name_in_spec. vm_compute. discriminate.
  - intros E. exfalso. cbn in H. repeat destruct H as [H|H]; try contradiction; injection H as <- <- <-; vm_compute in E; discriminate.
Qed.

Lemma set_full K p s name sz old v :
  p_os p = Linux -> native p -> rk_get K = None -> (forall r, rk_set K r = None) -> whole p (r_regs s) ->
  reg_holds p (r_regs s) name sz old ->
  exists s', setreg K p name v s = (s', Ok tt) /\
    snd (getreg K p name s') = Ok (v mod 2 ^ (8 * sz)) /\
    forall n sz' x, n <> name -> reg_holds p (r_regs s) n sz' x -> reg_holds p (r_regs s') n sz' x.
Proof.
  intros Ho Hn Hk Hs Hw Hh.
  assert (dget text_eqb name (CPU_SUB_REGISTERS p) = None) as Hd.
  { apply full_not_sub; [now apply native_sane|]. apply name_in_spec. eapply holds_name; eauto. }
  destruct (setreg_full K p s name sz old v (linux_readable p Ho) Hk Hs Hw Hd Hh) as (s' & E & A & B & C).
  exists s'. split; [exact E|]. split; [|exact C].
  now rewrite (getreg_full K p s' name sz _ (linux_readable p Ho) Hk B Hd A).
Qed.
Lemma set_low K p s name main w sz old v :
  is_intel (p_cpu p) = true -> rk_get K = None -> (forall r, rk_set K r = None) -> whole p (r_regs s) ->
  In (name, (main, 0, w)) (intel_parts p) -> reg_holds p (r_regs s) main sz old ->
  exists s' new, setreg K p name v s = (s', Ok tt) /\
    snd (getreg K p name s') = Ok (v mod 2 ^ w) /\
    reg_holds p (r_regs s') main sz new /\ new / 2 ^ w = old / 2 ^ w /\
    forall n sz' x, n <> main -> reg_holds p (r_regs s) n sz' x -> reg_holds p (r_regs s') n sz' x.
Proof.
  intros Hi Hk Hs Hw Hin Hh.
  destruct (setreg_low K p s name main w sz old v Hi Hk Hs Hw Hin Hh) as (s' & new & E & A & B & C & D & F).
  exists s', new. split; [exact E|]. split; [|auto].
  rewrite (getreg_part K p s' name main 0 w sz new Hi (intel_readable p Hi) Hk D Hin A). cbn. now rewrite B.
Qed.
Lemma ah_wrong : exists K p s old v s' new x,
  p = linux_x86_64 /\ whole p (r_regs s) /\ reg_holds p (r_regs s) (T "rax") 8 old /\
  setreg K p (T "ah") v s = (s', Ok tt) /\ 0 <= v < 2 ^ 8 /\
  reg_holds p (r_regs s') (T "rax") 8 new /\
  snd (getreg K p (T "ah") s') = Ok x /\ x <> v /\ bits new 0 8 <> bits old 0 8.
Proof.
  set (s := with_reg linux_x86_64 (T "rax") 0xabcd).
  exists good_kernel, linux_x86_64, s, 0xabcd, 0x12, (fst (setreg good_kernel linux_x86_64 (T "ah") 0x12 s)), 0xbb00, 0xbb.
  split; [reflexivity|]. split; [vm_compute; reflexivity|].
  split; [exists 80; split; [vm_compute; tauto|vm_compute; reflexivity]|].
  split; [vm_compute; reflexivity|]. split; [lia|].
  split; [exists 80; split; [vm_compute; tauto|vm_compute; reflexivity]|].
  split; [vm_compute; reflexivity|]. split; [discriminate|vm_compute; discriminate].
Qed.
Lemma eax_set : forall K s v, rk_get K = None -> whole linux_x86_64 (r_regs s) ->
  exists s', setreg K linux_x86_64 (T "eax") v s = (s', Err ETypeError) /\ r_regs s' = r_regs s.
Proof.
  intros K s v Hk Hw. eexists. unfold setreg. unfold rbind at 1.
  rewrite (getregs_ok K linux_x86_64 s eq_refl Hk).
  change (dget text_eqb (T "eax") (CPU_SUB_REGISTERS linux_x86_64)) with (Some (T "rax", 32, @None Z)).
  destruct (name_holds linux_x86_64 (r_regs s) (T "rax")) as (sz & x & Hh).
  { apply name_in_spec. reflexivity. }
  unfold rbind, rlift. rewrite (holds_get _ _ _ _ _ Hw Hh). split; reflexivity.
Qed.
Lemma set_fail K p name v s s' e : setreg K p name v s = (s', Err e) -> r_regs s' = r_regs s.
Proof. apply setreg_fail. Qed.

Lemma pointers K p s : p_os p = Linux -> native p -> p_cpu p <> OtherCPU -> rk_get K = None -> whole p (r_regs s) ->
  (exists r sz v, arch_pc (p_cpu p) = Some r /\ reg_holds p (r_regs s) r sz v /\ snd (getInstrPointer K p s) = Ok v) /\
  (p_cpu p <> ARM32 ->
   exists r sz v, arch_sp (p_cpu p) = Some r /\ reg_holds p (r_regs s) r sz v /\ snd (getStackPointer K p s) = Ok v) /\
  (is_powerpc (p_cpu p) = false ->
   exists r sz v, arch_fp (p_cpu p) = Some r /\ reg_holds p (r_regs s) r sz v /\ snd (getFramePointer K p s) = Ok v).
Proof.
  intros Ho Hn Hoth Hk Hw. pose proof (linux_pointers p Ho Hn) as H.
  apply andb_prop in H as [H H3]. apply andb_prop in H as [H1 H2].
  assert (forall r, pointer_okb p (Some r) = true -> exists sz v, reg_holds p (r_regs s) r sz v /\ snd (getreg K p r s) = Ok v) as Hp.
  { intros r Hr. destruct (name_holds p (r_regs s) r) as (sz & v & Hh).
    - cbn in Hr. apply andb_prop in Hr as [Hr _]. now apply name_in_spec.
    - exists sz, v. split; [exact Hh|]. now rewrite (pointer_get K p s r sz v Ho Hr Hk Hw Hh). }
  assert (CPU_INSTR_POINTER p = arch_pc (p_cpu p)) as E1 by (unfold CPU_INSTR_POINTER, arch_pc; now destruct (p_cpu p)).
  assert (CPU_FRAME_POINTER p = arch_fp (p_cpu p)) as E3 by (unfold CPU_FRAME_POINTER, arch_fp; now destruct (p_cpu p)).
  split; [|split].
  - unfold getInstrPointer. rewrite E1 in *. destruct (arch_pc (p_cpu p)) as [r|] eqn:E; [|destruct (p_cpu p); cbn in E; congruence].
    destruct (Hp r H1) as (sz & v & A & B). exists r, sz, v. auto.
  - intros Harm. assert (CPU_STACK_POINTER p = arch_sp (p_cpu p)) as E2 by (unfold CPU_STACK_POINTER, arch_sp; now destruct (p_cpu p)).
    unfold getStackPointer. rewrite E2 in *. destruct (arch_sp (p_cpu p)) as [r|] eqn:E; [|destruct (p_cpu p); cbn in E; congruence].
    destruct (Hp r H2) as (sz & v & A & B). exists r, sz, v. auto.
  - intros Hppc. unfold getFramePointer. rewrite E3 in *.
    destruct (arch_fp (p_cpu p)) as [r|] eqn:E; [|destruct (p_cpu p); cbn in *; congruence].
    destruct (Hp r H3) as (sz & v & A & B). exists r, sz, v. auto.
Qed.
Lemma set_pc K p s v : p_os p = Linux -> native p -> p_cpu p <> OtherCPU -> rk_get K = None -> (forall r, rk_set K r = None) ->
  whole p (r_regs s) -> exists s' sz, setInstrPointer K p v s = (s', Ok tt) /\ snd (getInstrPointer K p s') = Ok (v mod 2 ^ (8 * sz)) /\
    sz = word_size p.
Proof.
  intros Ho Hn Hoth Hk Hs Hw. pose proof (linux_pointers p Ho Hn) as H.
  apply andb_prop in H as [H _]. apply andb_prop in H as [H _].
  unfold setInstrPointer, getInstrPointer.
  destruct (CPU_INSTR_POINTER p) as [r|] eqn:E; [|unfold CPU_INSTR_POINTER in E; destruct (p_cpu p); congruence].
  destruct (name_holds p (r_regs s) r) as (sz & old & Hh).
  { cbn in H. apply andb_prop in H as [H _]. now apply name_in_spec. }
  destruct (set_full K p s r sz old v Ho Hn Hk Hs Hw Hh) as (s' & A & B & _).
  exists s', sz. split; [exact A|]. split; [exact B|].
  destruct Hh as (o & Hin & _). clear - Hin E Ho Hn Hoth.
  destruct (layout_bounds _ (fields_pos p) _ _ _ _ Hin) as (_ & _ & _ & _ & H').
  assert (dget text_eqb r (register_fields p) = Some sz) as Hd.
  { apply (dget_NoDup_In text_eqb text_eqb_eq); [apply fields_nodup|exact H']. }
  destruct p as [[] [] [] []]; cbn in Ho, Hn, Hoth, E; try discriminate; try congruence;
    injection E as <-; vm_compute in Hd; injection Hd as <-; reflexivity.
Qed.
Lemma arm_sp : exists K p s sz v, p = linux_arm32 /\ whole p (r_regs s) /\ arch_sp (p_cpu p) = Some (T "r13") /\
  reg_holds p (r_regs s) (T "r13") sz v /\ v <> 0 /\ snd (getStackPointer K p s) = Ok 0.
Proof.
  exists good_kernel, linux_arm32, (with_reg linux_arm32 (T "r13") 0x7fff0000), 4, 0x7fff0000.
  split; [reflexivity|]. split; [vm_compute; reflexivity|]. split; [reflexivity|].
  split; [exists 52; split; [vm_compute; tauto|vm_compute; reflexivity]|]. split; [discriminate|vm_compute; reflexivity].
Qed.
(** 32-bit Python on a 64-bit Intel kernel: the structure has eip, the name looked up is rip *)
Lemma python32 K s : getInstrPointer K (Platform Linux X86_64 false false) s = (s, Err EProcessError).
Proof. reflexivity. Qed.

Lemma layout_no_overlap p n o sz n' o' sz' : n <> n' ->
  In (n, (o, sz)) (layout 0 (register_fields p)) -> In (n', (o', sz')) (layout 0 (register_fields p)) ->
  o + sz <= o' \/ o' + sz' <= o.
Proof. apply layout_disjoint, fields_pos. Qed.
Lemma other_cpu_pointers K p s v : p_cpu p = OtherCPU ->
  setInstrPointer K p v s = (s, Err EProcessError) /\ getInstrPointer K p s = (s, Err EProcessError) /\ getStackPointer K p s = (s, Err EProcessError).
Proof. intros H. unfold setInstrPointer, getInstrPointer, getStackPointer, CPU_INSTR_POINTER, CPU_STACK_POINTER. rewrite H. repeat split. Qed.
