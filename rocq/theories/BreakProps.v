(** * BreakProps: C16, C17, C68, breakpoints. *)
From Coq Require Import ZArith List Ascii String Bool Lia.
From Verif Require Import PyBase Platform CallModel MemModel MemSpec MemExamples StructModel RegModel RegSpec RegFinal
  BreakModel BreakSpec BreakProofs BreakFinal BreakNest.
Import ListNotations.
Open Scope Z_scope.

(** ** C16 *)
Theorem c16_install : forall E st a size,
  plain E -> accessible E (b_mem st) a (break_size E size) -> (forall bp, live st bp -> ~ covers bp a) ->
  exists st' id old new, createBreakpoint E a size st = (st', Ok id) /\
    nth_error (b_objs st') id = Some (BP a (break_size E size) old true) /\ findBreakpoint a st' <> None /\
    stored (s_mem (b_mem st)) a old /\ zlen old = break_size E size /\
    written (s_mem (b_mem st)) (s_mem (b_mem st')) a new /\ zlen new = break_size E size /\
    (is_powerpc (p_cpu (e_p E)) = false -> forall b, In b new -> b2z b = 0xcc).
Proof. exact install. Qed.
Print Assumptions c16_install.
(** any interleaving of creations and removals *)
Theorem c16_sequences_partial : forall E K st l,
  plain E -> b_running st = true -> no_breakpoints st -> well_behaved E K st l ->
  let st' := fold_left (fun s a => act E K a s) l st in
  (forall x, (forall bp, live st' bp -> ~ covers bp x) ->
     k_byte (s_mem (b_mem st')) x = k_byte (s_mem (b_mem st)) x) /\
  (forall bp, live st' bp ->
     zlen (bp_old bp) = bp_size bp /\ stored (s_mem (b_mem st)) (bp_address bp) (bp_old bp) /\
     exists new, break_bytes E (bp_size bp) = Ok new /\ zlen new = bp_size bp /\
       stored (s_mem (b_mem st')) (bp_address bp) new).
Proof. exact sequences. Qed.
Print Assumptions c16_sequences_partial.
Theorem c16_all_removed : forall E K st l,
  plain E -> b_running st = true -> no_breakpoints st -> well_behaved E K st l ->
  let st' := fold_left (fun s a => act E K a s) l st in
  (forall id bp, nth_error (b_objs st') id = Some bp -> bp_installed bp = false) ->
  forall x, k_byte (s_mem (b_mem st')) x = k_byte (s_mem (b_mem st)) x.
Proof. exact all_removed. Qed.
Print Assumptions c16_all_removed.
(** set_ip *)
Theorem c16_set_ip : forall E K st id bp st',
  p_os (e_p E) = Linux -> native (e_p E) -> p_cpu (e_p E) <> OtherCPU -> rk_get K = None -> (forall r, rk_set K r = None) ->
  whole (e_p E) (r_regs (b_regs st)) ->
  nth_error (b_objs st) id = Some bp -> bp_installed bp = true -> 0 <= bp_address bp < 2 ^ (8 * word_size (e_p E)) ->
  desinstall E K id true st = (st', Ok tt) ->
  snd (getInstrPointer K (e_p E) (b_regs st')) = Ok (bp_address bp).
Proof. exact desinstall_ip. Qed.
Print Assumptions c16_set_ip.
(** createBreakpoint accepts overlapping ranges; removing them in creation order leaves a trap behind *)
Theorem c16_overlap_refuted : exists E K st l, plain E /\ p_cpu (e_p E) = X86_64 /\ b_running st = true /\ no_breakpoints st /\
  let st' := fold_left (fun s a => act E K a s) l st in
  (forall id bp, nth_error (b_objs st') id = Some bp -> bp_installed bp = false) /\ b_dict st' = [] /\
  exists x, k_byte (s_mem (b_mem st')) x = Some (z2b 0xcc) /\ k_byte (s_mem (b_mem st)) x = Some (z2b x) /\ z2b x <> z2b 0xcc.
Proof. exact overlap_corrupts. Qed.
Print Assumptions c16_overlap_refuted.
(** overlapping breakpoints removed in the reverse order leave nothing behind *)
Theorem c16_nested : forall E K st l m, plain E -> b_running st = true -> no_breakpoints st -> bracketed 0 l m -> possible E K st l ->
  let st' := fold_left (fun s a => act E K a s) l st in b_dict st' = [] /\
  (forall x, k_byte (s_mem (b_mem st')) x = k_byte (s_mem (b_mem st)) x) /\ (forall x, k_pokable (s_mem (b_mem st')) x = k_pokable (s_mem (b_mem st)) x).
Proof. exact nested. Qed.
Print Assumptions c16_nested.
Example c16_nested_ex : let l := [Create 4098 None; Create 4097 (Some 2); Remove 1; Remove 0] in
  bracketed 0 l 2 /\ possible (xenv linux_x86_64) good_kernel (xstate page_mem linux_x86_64) l.
Proof.
  split; [apply (BPair 0 4098 None [Create 4097 (Some 2); Remove 1] 2 []); [apply (BPair 1 4097 (Some 2) [] 2 []); apply BNone|apply BNone]|].
  split; [split; [apply page_accessible; cbn; lia|intros bp (a & id & [] & _)]|]. split; [|split; [exact I|split; [exact I|exact I]]].
  split.
  - pose proof (page_accessible linux_x86_64 4097 2 ltac:(lia) ltac:(lia) ltac:(lia)) as H.
    destruct (new_breakpoint_ok (xenv linux_x86_64) eq_refl ltac:(split; easy) (prefix_env_faithful _ _) (prefix_env_never_fails _ _) (or_introl eq_refl) eq_refl
      4098 None (fresh page_mem) (page_accessible linux_x86_64 4098 1 ltac:(lia) ltac:(lia) ltac:(lia))) as (s & old & new & R & _ & _ & _ & _ & _ & A).
    unfold act, createBreakpoint. cbn [xstate b_mem findBreakpoint find_in b_dict b_objs]. rewrite R. exact (A _ _ H).
  - intros bp (a & id & H1 & H2). vm_compute in H1. destruct H1 as [[= <- <-]|[]]. vm_compute in H2. injection H2 as <-. unfold covers. cbn. lia.
Qed.
Example c16_ex :
  let E := xenv linux_x86_64 in let st := xstate page_mem linux_x86_64 in
  let l := [Create 4100 None; Create 4101 (Some 3); Remove 0; Create 4100 None; Remove 1] in
  plain E /\ no_breakpoints st /\ accessible E (b_mem st) 4101 3 /\
  let st' := fold_left (fun s a => act E good_kernel a s) l st in
  map (fun x => k_byte (s_mem (b_mem st')) x) [4099; 4100; 4101; 4103; 4104] =
  map (fun z => Some (z2b z)) [3; 0xcc; 5; 7; 8] /\ b_dict st' = [(4100, 2%nat)].
Proof.
  cbv zeta. split; [now apply xenv_plain|]. split; [split; reflexivity|]. split; [apply page_accessible; lia|].
  split; vm_compute; reflexivity.
Qed.
Example c16_well_behaved_ex :
  well_behaved (xenv linux_x86_64) good_kernel (xstate page_mem linux_x86_64) [Create 4100 None; Remove 0].
Proof.
  split; [|repeat split]. split; [apply page_accessible; cbn; lia|]. intros bp (a & id & H & _). destruct H.
Qed.

(** ** C17 *)
Theorem c17_find_iff : forall st a,
  (exists id, findBreakpoint a st = Some id) <-> exists bp, live st bp /\ covers bp a.
Proof. exact find_iff. Qed.
Print Assumptions c17_find_iff.
Theorem c17_find_live : forall st a id, findBreakpoint a st = Some id ->
  exists bp, nth_error (b_objs st) id = Some bp /\ live st bp /\ covers bp a.
Proof. exact find_live. Qed.
Print Assumptions c17_find_live.
Theorem c17_create_refused : forall E st a size bp, live st bp -> covers bp a ->
  createBreakpoint E a size st = (st, Err EProcessError).
Proof. exact create_refused_live. Qed.
Print Assumptions c17_create_refused.
Theorem c17_create_error_iff : forall E st a size, plain E -> accessible E (b_mem st) a (break_size E size) ->
  snd (createBreakpoint E a size st) = Err EProcessError <-> exists bp, live st bp /\ covers bp a.
Proof. exact create_error_iff. Qed.
Print Assumptions c17_create_error_iff.
Theorem c17_desinstall_twice : forall E K id ip ip' st, let st' := fst (desinstall E K id ip st) in
  desinstall E K id ip' st' = (st', Ok tt).
Proof. exact desinstall_twice. Qed.
Print Assumptions c17_desinstall_twice.
Example c17_ex :
  let E := xenv linux_x86_64 in
  let st := fst (createBreakpoint E 4100 (Some 3) (xstate page_mem linux_x86_64)) in
  map (fun a => findBreakpoint a st) [4099; 4100; 4102; 4103] = [None; Some 0%nat; Some 0%nat; None] /\
  snd (createBreakpoint E 4102 None st) = Err EProcessError /\ snd (createBreakpoint E 4103 None st) = Ok 1%nat.
Proof. cbv zeta. repeat split; vm_compute; reflexivity. Qed.

(** ** C68: the trap *)
Theorem c68_intel : forall E, is_intel (p_cpu (e_p E)) = true ->
  exists d l, break_bytes E (break_size E None) = Ok d /\
    trap_instruction (p_cpu (e_p E)) (p_bigendian (e_p E)) = Some l /\ map b2z d = l.
Proof. exact trap_intel. Qed.
Print Assumptions c68_intel.
Theorem c68_powerpc_partial : forall E, is_powerpc (p_cpu (e_p E)) = true ->
  p_64bits (e_p E) = false \/ p_bigendian (e_p E) = false ->
  exists d l, break_bytes E (break_size E None) = Ok d /\
    trap_instruction (p_cpu (e_p E)) (p_bigendian (e_p E)) = Some l /\ map b2z (firstn 4 d) = l.
Proof. exact trap_ppc. Qed.
Print Assumptions c68_powerpc_partial.
Theorem c68_ppc64_refuted : exists E d l, e_p E = linux_ppc64 /\ break_bytes E (break_size E None) = Ok d /\
  trap_instruction (p_cpu (e_p E)) (p_bigendian (e_p E)) = Some l /\ map b2z (firstn 4 d) <> l.
Proof. exact trap_ppc64. Qed.
Print Assumptions c68_ppc64_refuted.
(** ARM, AArch64 and RISC-V: the Intel byte is written whatever the size *)
Theorem c68_other_cpus : forall E d l,
  is_intel (p_cpu (e_p E)) = false -> is_powerpc (p_cpu (e_p E)) = false -> p_cpu (e_p E) <> OtherCPU ->
  trap_instruction (p_cpu (e_p E)) (p_bigendian (e_p E)) = Some l ->
  (forall n, break_bytes E n = Ok d -> 0 < n -> firstn 1 (map b2z d) <> firstn 1 l).
Proof. exact trap_others. Qed.
Print Assumptions c68_other_cpus.
(** a creation that fails half-way leaves traps in memory and no breakpoint *)
Theorem c68_failed_create_refuted : exists E st a size, plain E /\ p_cpu (e_p E) = X86_64 /\ no_breakpoints st /\
  words_mapped (e_p E) (s_mem (b_mem st)) a size /\
  match createBreakpoint E a (Some size) st with
  | (st', Err (EPtraceError _)) =>
      no_breakpoints st' /\ k_byte (s_mem (b_mem st')) a = Some (z2b 0xcc) /\ k_byte (s_mem (b_mem st)) a = Some (z2b a) /\
      z2b a <> z2b 0xcc
  | _ => False
  end.
Proof. exact failed_create. Qed.
Print Assumptions c68_failed_create_refuted.
Example c68_ex : break_bytes (xenv linux_ppc32) (break_size (xenv linux_ppc32) None) = Ok (map z2b [0x0c; 0xc0; 0; 0]) /\
  break_bytes (xenv linux_aarch64) 4 = Ok (map z2b [0xcc; 0xcc; 0xcc; 0xcc]).
Proof. split; vm_compute; reflexivity. Qed.
(** removeBreakpoint *)
Theorem c17_remove : forall bp st, NoDup (map fst (b_dict st)) ->
  (dget Z.eqb (bp_address bp) (b_dict st) = None -> removeBreakpoint bp st = (st, Err EKeyError)) /\
  (dget Z.eqb (bp_address bp) (b_dict st) <> None -> exists st', removeBreakpoint bp st = (st', Ok tt) /\ b_mem st' = b_mem st /\ b_objs st' = b_objs st /\
     forall a, dget Z.eqb a (b_dict st') = if a =? bp_address bp then None else dget Z.eqb a (b_dict st)).
Proof. exact remove_spec. Qed.
Print Assumptions c17_remove.
