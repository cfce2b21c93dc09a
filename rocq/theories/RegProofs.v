From Coq Require Import ZArith List Ascii String Bool Lia.
From Verif Require Import PyBase PyFacts Platform IntModel IntSpec IntProofs StructModel StructProofs RegModel RegSpec.
Import ListNotations.
Open Scope Z_scope.

Fixpoint nodupb (l : list text) : bool :=
  match l with [] => true | x :: l => negb (name_in x l) && nodupb l end.
Lemma name_in_spec n l : name_in n l = true <-> In n l.
Proof.
  unfold name_in. rewrite existsb_exists. split.
  - intros (x & H & E). apply text_eqb_eq in E. now subst.
  - intros H. exists n. split; [auto|apply text_eqb_refl].
Qed.
Lemma nodupb_spec l : nodupb l = true -> NoDup l.
Proof.
  induction l as [|x l IH]; cbn; [constructor|]. intros H. apply andb_prop in H as [H1 H2].
  constructor; auto. intros Hi. apply name_in_spec in Hi. now rewrite Hi in H1.
Qed.
Definition fields_okb (p : platform) : bool :=
  nodupb (REGISTER_NAMES p) && forallb (fun f => 0 <? snd f) (register_fields p).
Lemma fields_ok p : fields_okb p = true.
Proof. destruct p as [[] [] [] []]; vm_compute; reflexivity. Qed.
Lemma fields_nodup p : NoDup (map fst (register_fields p)).
Proof. pose proof (fields_ok p) as H. apply andb_prop in H as [H _]. now apply nodupb_spec. Qed.
Lemma fields_pos p : Forall (fun f : text * Z => 0 < snd f) (register_fields p).
Proof.
  pose proof (fields_ok p) as H. apply andb_prop in H as [_ H]. rewrite forallb_forall in H.
  apply Forall_forall. intros x Hx. specialize (H x Hx). lia.
Qed.

Lemma holds_name p s n sz v : reg_holds p s n sz v -> name_in n (REGISTER_NAMES p) = true.
Proof.
  intros (off & H & _). apply name_in_spec. unfold REGISTER_NAMES. rewrite <- (layout_names 0).
  apply in_map_iff. eexists; split; [|exact H]. reflexivity.
Qed.
Lemma holds_get p s n sz v : whole p s -> reg_holds p s n sz v ->
  get_field (p_bigendian p) (register_fields p) s n = Ok v.
Proof.
  intros Hw (off & H & <-).
  apply (get_field_ok (p_bigendian p) _ (fields_pos p) (fields_nodup p) n off sz s H). rewrite Hw. lia.
Qed.
Lemma name_holds p s n : In n (REGISTER_NAMES p) -> exists sz v, reg_holds p s n sz v.
Proof.
  intros H. unfold REGISTER_NAMES in H. rewrite <- (layout_names 0) in H. apply in_map_iff in H as ([n' [o sz]] & <- & H).
  exists sz. eexists. exists o. split; [exact H|reflexivity].
Qed.
Lemma holds_range p s n sz v : whole p s -> reg_holds p s n sz v -> 0 < sz /\ 0 <= v < 2 ^ (8 * sz).
Proof.
  intros Hw (off & H & <-).
  assert (sizeof (register_fields p) <= zlen s) as Hl by (rewrite Hw; lia).
  destruct (in_layout _ (fields_pos p) _ _ _ s H Hl) as (A & B & C).
  pose proof (field_bytes_length _ (fields_pos p) _ _ _ s H Hl) as E. unfold field_bytes in E.
  pose proof (host_value_range (p_bigendian p) (firstn (Z.to_nat sz) (skipn (Z.to_nat off) s))) as R.
  split; [exact B|]. unfold zlen in R. rewrite E, pow256 in R. now rewrite Z2Nat.id in R by lia.
Qed.
Lemma holds_fun p s n sz v sz' v' : reg_holds p s n sz v -> reg_holds p s n sz' v' -> sz = sz' /\ v = v'.
Proof.
  intros (o & H & <-) (o' & H' & <-).
  pose proof (find_field _ (fields_nodup p) _ _ _ H) as E.
  pose proof (find_field _ (fields_nodup p) _ _ _ H') as E'. rewrite E in E'. injection E' as -> ->. auto.
Qed.

(** ** getreg *)
Definition noted (c : reg_call) (s : rstate) : rstate := RState (r_regs s) (c :: r_calls s).
Definition readable (p : platform) : bool := has_ptrace_getregs p || has_ptrace_getregset p.

Lemma getregs_ok K p s : readable p = true -> rk_get K = None -> getregs K p s = (noted GetRegs s, Ok (r_regs s)).
Proof. intros H1 H2. unfold getregs, readable in *. rewrite H1. unfold ptrace_getregs, rbind, rnote. now rewrite H2. Qed.

Lemma getreg_eq K p s name main shift mask sz v :
  readable p = true -> rk_get K = None -> whole p (r_regs s) ->
  match dget text_eqb name (CPU_SUB_REGISTERS p) with Some x => x | None => (name, 0, None) end = (main, shift, mask) ->
  reg_holds p (r_regs s) main sz v ->
  getreg K p name s = (noted GetRegs s,
    Ok match mask with Some m => if m =? 0 then Z.shiftr v shift else Z.land (Z.shiftr v shift) m
       | None => Z.shiftr v shift end).
Proof.
  intros Hr Hk Hw Hd Hh. unfold getreg. rewrite Hd, (holds_name _ _ _ _ _ Hh). cbn [negb].
  unfold rbind at 1. rewrite (getregs_ok _ _ _ Hr Hk). unfold rbind, rlift.
  now rewrite (holds_get _ _ _ _ _ Hw Hh).
Qed.

Definition mask_of (w : Z) : Z := 2 ^ w - 1.
(** the code's table agrees with the manual, but for eax..edx on x86_64 and iopl *)
Definition part_okb (p : platform) (x : text * (text * Z * Z)) : bool :=
  let '(n, (main, lo, w)) := x in
  match dget text_eqb n (CPU_SUB_REGISTERS p) with
  | Some (m, s, Some k) => text_eqb m main && (s =? lo) && (k =? mask_of w) && (0 <? w) && (0 <=? lo)
  | _ => false
  end.
Lemma parts_ok p : is_intel (p_cpu p) = true -> forallb (part_okb p) (intel_parts p) = true.
Proof. destruct p as [o [] b w]; intros H; try discriminate H; vm_compute; reflexivity. Qed.
Lemma part_sub p n main lo w : is_intel (p_cpu p) = true -> In (n, (main, lo, w)) (intel_parts p) ->
  dget text_eqb n (CPU_SUB_REGISTERS p) = Some (main, lo, Some (mask_of w)) /\ 0 < w /\ 0 <= lo.
Proof.
  intros Hi Hin. pose proof (parts_ok p Hi) as H. rewrite forallb_forall in H. specialize (H _ Hin).
  unfold part_okb in H. destruct (dget _ _ _) as [[[m s] [k|]]|]; try discriminate H.
  repeat (apply andb_prop in H as [H ?]). apply text_eqb_eq in H. subst m.
  zb. subst. auto.
Qed.
Lemma mask_bits v lo w : 0 < w -> 0 <= lo -> 
  (if mask_of w =? 0 then Z.shiftr v lo else Z.land (Z.shiftr v lo) (mask_of w)) = bits v lo w.
Proof.
  intros Hw Hl. unfold mask_of, bits.
  assert (2 ^ 1 <= 2 ^ w) by (apply Z.pow_le_mono_r; lia).
  replace (2 ^ w - 1 =? 0) with false by blia.
  rewrite land_mask, Z.shiftr_div_pow2 by lia. reflexivity.
Qed.

Lemma getreg_part K p s name main lo w sz v :
  is_intel (p_cpu p) = true -> readable p = true -> rk_get K = None -> whole p (r_regs s) ->
  In (name, (main, lo, w)) (intel_parts p) -> reg_holds p (r_regs s) main sz v ->
  getreg K p name s = (noted GetRegs s, Ok (bits v lo w)).
Proof.
  intros Hi Hr Hk Hw Hin Hh. destruct (part_sub p name main lo w Hi Hin) as (Hd & H1 & H2).
  rewrite (getreg_eq K p s name main lo (Some (mask_of w)) sz v Hr Hk Hw); [|now rewrite Hd|exact Hh].
  now rewrite mask_bits.
Qed.
Lemma intel_readable p : is_intel (p_cpu p) = true -> readable p = true.
Proof. unfold readable, has_ptrace_getregs, has_ptrace_getregset, running_linux. destruct (p_os p), (p_cpu p); now intros. Qed.

(** registers of the structure are not sub-registers *)
Definition disjoint_namesb (p : platform) : bool :=
  forallb (fun n => match dget text_eqb n (CPU_SUB_REGISTERS p) with None => true | _ => false end) (REGISTER_NAMES p).
(** (except on a platform mixing x86_64 names with 32-bit structures) *)
Definition sane (p : platform) : Prop := disjoint_namesb p = true.
Lemma native_sane p : p_os p = Linux -> native p -> sane p.
Proof.
  unfold native, sane. destruct p as [[] [] [] []]; cbn; intros Ho H; try discriminate; vm_compute; reflexivity.
Qed.
Lemma full_not_sub p n : sane p -> In n (REGISTER_NAMES p) -> dget text_eqb n (CPU_SUB_REGISTERS p) = None.
Proof.
  intros H Hin. unfold sane, disjoint_namesb in H. rewrite forallb_forall in H. specialize (H n Hin).
  now destruct (dget _ _ _).
Qed.
Lemma getreg_full K p s name sz v :
  readable p = true -> rk_get K = None -> whole p (r_regs s) ->
  dget text_eqb name (CPU_SUB_REGISTERS p) = None -> reg_holds p (r_regs s) name sz v ->
  getreg K p name s = (noted GetRegs s, Ok v).
Proof.
  intros Hr Hk Hw Hd Hh. rewrite (getreg_eq K p s name name 0 None sz v Hr Hk Hw); [|now rewrite Hd|exact Hh].
  reflexivity.
Qed.

Lemma getreg_unknown K p name s :
  (forall main shift mask, dget text_eqb name (CPU_SUB_REGISTERS p) = Some (main, shift, mask) -> ~ In main (REGISTER_NAMES p)) ->
  (dget text_eqb name (CPU_SUB_REGISTERS p) = None -> ~ In name (REGISTER_NAMES p)) ->
  getreg K p name s = (s, Err EProcessError).
Proof.
  intros H1 H2. unfold getreg. destruct (dget text_eqb name (CPU_SUB_REGISTERS p)) as [[[m sh] k]|].
  - assert (name_in m (REGISTER_NAMES p) = false) as ->; auto.
    destruct (name_in _ _) eqn:E; auto. apply name_in_spec in E. exfalso. now apply (H1 m sh k).
  - assert (name_in name (REGISTER_NAMES p) = false) as ->; auto.
    destruct (name_in _ _) eqn:E; auto. apply name_in_spec in E. exfalso. now apply H2.
Qed.

(** reading changes nothing *)
Lemma rlift_regs {A} (x : res A) s : r_regs (fst (rlift x s)) = r_regs s.
Proof. reflexivity. Qed.
Lemma rbind_regs {A B} (m : R A) (f : A -> R B) s :
  (r_regs (fst (m s)) = r_regs s) -> (forall a s', r_regs (fst (f a s')) = r_regs s') ->
  r_regs (fst (rbind m f s)) = r_regs s.
Proof.
  intros H1 H2. unfold rbind. destruct (m s) as [s' [a|e]]; cbn in *; auto. rewrite H2. exact H1.
Qed.
Lemma peek_words_regs K p l s : r_regs (fst (peek_words K p l s)) = r_regs s.
Proof.
  revert s; induction l as [|o l IH]; intros s; cbn [peek_words]; [reflexivity|].
  apply rbind_regs; [reflexivity|]. intros _ s'. apply rbind_regs; [reflexivity|]. intros w s''.
  apply rbind_regs; [reflexivity|]. intros b s3. apply rbind_regs; [apply IH|]. reflexivity.
Qed.
Lemma getregs_regs K p s : r_regs (fst (getregs K p s)) = r_regs s.
Proof.
  unfold getregs. destruct (_ || _).
  - unfold ptrace_getregs. apply rbind_regs; [reflexivity|]. intros _ s'. now destruct (rk_get K).
  - apply rbind_regs; [apply peek_words_regs|]. intros [|] s'; reflexivity.
Qed.
Lemma getreg_regs K p name s : r_regs (fst (getreg K p name s)) = r_regs s.
Proof.
  unfold getreg. destruct (match dget _ _ _ with Some x => x | None => _ end) as [[n sh] mk].
  destruct (negb _); [reflexivity|]. apply rbind_regs; [apply getregs_regs|]. intros r s'.
  apply rbind_regs; reflexivity.
Qed.

(** ** setreg *)
Lemma holds_update_same p s n o sz v : whole p s -> In (n, (o, sz)) (layout 0 (register_fields p)) ->
  reg_holds p (update s o sz (host_bytes (p_bigendian p) (Z.to_nat sz) v)) n sz (v mod 2 ^ (8 * sz)).
Proof.
  intros Hw H. exists o. split; [exact H|].
  assert (sizeof (register_fields p) <= zlen s) as Hl by (rewrite Hw; lia).
  destruct (in_layout _ (fields_pos p) _ _ _ s H Hl) as (A & B & C).
  change (firstn _ (skipn _ ?x)) with (field_bytes x o sz).
  rewrite update_same by (try lia; unfold zlen; rewrite host_bytes_length; lia).
  rewrite host_bytes_value. now rewrite Z2Nat.id by lia.
Qed.
Lemma holds_update_other p s n o sz b n' sz' v' : whole p s -> In (n, (o, sz)) (layout 0 (register_fields p)) ->
  zlen b = sz -> n' <> n -> reg_holds p s n' sz' v' -> reg_holds p (update s o sz b) n' sz' v'.
Proof.
  intros Hw H Hb Hne (o' & H' & <-). exists o'. split; [exact H'|].
  assert (sizeof (register_fields p) <= zlen s) as Hl by (rewrite Hw; lia).
  destruct (in_layout _ (fields_pos p) _ _ _ s H Hl) as (A & B & C).
  destruct (in_layout _ (fields_pos p) _ _ _ s H' Hl) as (A' & B' & C').
  f_equal. apply update_other; try lia.
  destruct (layout_disjoint _ (fields_pos p) 0 _ _ _ _ _ _ Hne H' H); lia.
Qed.

(** the effect of setattr + PTRACE_SETREGS *)
Definition only_changed (p : platform) (s s' : list byte) (name : text) : Prop :=
  whole p s' /\ forall n sz v, n <> name -> reg_holds p s n sz v -> reg_holds p s' n sz v.

Lemma setregs_effect K p s name sz old v :
  readable p = true -> (forall r, rk_set K r = None) -> whole p (r_regs s) -> reg_holds p (r_regs s) name sz old ->
  exists regs', set_field (p_bigendian p) (register_fields p) (r_regs s) name v = Ok regs' /\
    reg_holds p regs' name sz (v mod 2 ^ (8 * sz)) /\ only_changed p (r_regs s) regs' name.
Proof.
  intros Hr Hk Hw (o & H & E).
  rewrite (set_field_ok (p_bigendian p) _ (fields_nodup p) name o sz (r_regs s) v H).
  eexists. split; [reflexivity|]. split; [now apply holds_update_same|].
  assert (sizeof (register_fields p) <= zlen (r_regs s)) as Hl by (rewrite Hw; lia).
  destruct (in_layout _ (fields_pos p) _ _ _ (r_regs s) H Hl) as (A & B & C).
  assert (zlen (host_bytes (p_bigendian p) (Z.to_nat sz) v) = sz) as Hb by (unfold zlen; rewrite host_bytes_length; lia).
  split; [unfold whole; rewrite update_length; auto; lia|]. intros n sz' v' Hne Hh.
  now apply (holds_update_other p _ name o sz _ n sz' v').
Qed.

Lemma setreg_full K p s name sz old v :
  readable p = true -> rk_get K = None -> (forall r, rk_set K r = None) -> whole p (r_regs s) ->
  dget text_eqb name (CPU_SUB_REGISTERS p) = None -> reg_holds p (r_regs s) name sz old ->
  exists s', setreg K p name v s = (s', Ok tt) /\
    reg_holds p (r_regs s') name sz (v mod 2 ^ (8 * sz)) /\ only_changed p (r_regs s) (r_regs s') name.
Proof.
  intros Hr Hk Hs Hw Hd Hh. unfold setreg. unfold rbind at 1. rewrite (getregs_ok _ _ _ Hr Hk).
  rewrite Hd. unfold rbind at 1, rret. rewrite (holds_name _ _ _ _ _ Hh). cbn [negb].
  destruct (setregs_effect K p s name sz old v Hr Hs Hw Hh) as (r' & E & A & B).
  unfold rbind, rlift. rewrite E. unfold setregs, ptrace_setregs, rbind, rnote. rewrite Hs.
  eexists. split; [reflexivity|]. auto.
Qed.

(** the value the code computes for a sub-register *)
Definition code_value (full v shift mask : Z) : Z :=
  Z.lor (Z.land full (Z.lnot mask)) (Z.shiftl (Z.land v mask) shift).
Lemma setreg_sub K p s name main shift mask sz old v :
  readable p = true -> rk_get K = None -> (forall r, rk_set K r = None) -> whole p (r_regs s) ->
  dget text_eqb name (CPU_SUB_REGISTERS p) = Some (main, shift, Some mask) -> reg_holds p (r_regs s) main sz old ->
  exists s', setreg K p name v s = (s', Ok tt) /\
    reg_holds p (r_regs s') main sz (code_value old v shift mask mod 2 ^ (8 * sz)) /\
    only_changed p (r_regs s) (r_regs s') main.
Proof.
  intros Hr Hk Hs Hw Hd Hh. unfold setreg. unfold rbind at 1. rewrite (getregs_ok _ _ _ Hr Hk).
  rewrite Hd. unfold rbind at 1. unfold rbind at 1. unfold rlift at 1. rewrite (holds_get _ _ _ _ _ Hw Hh).
  unfold rret. rewrite (holds_name _ _ _ _ _ Hh). cbn [negb].
  destruct (setregs_effect K p s main sz old (code_value old v shift mask) Hr Hs Hw Hh) as (r' & E & A & B).
  unfold rbind, rlift. unfold code_value in E. rewrite E. unfold setregs, ptrace_setregs, rbind, rnote. rewrite Hs.
  eexists. split; [reflexivity|]. auto.
Qed.
(** with shift 0 it is the right one *)
Lemma code_value_low old v w n : 0 < w -> w <= n -> 0 <= old < 2 ^ n ->
  let new := code_value old v 0 (mask_of w) mod 2 ^ n in
  bits new 0 w = v mod 2 ^ w /\ new / 2 ^ w = old / 2 ^ w.
Proof.
  intros Hw Hn Ho new.
  assert (forall i, 0 <= i < n -> Z.testbit new i = if i <? w then Z.testbit v i else Z.testbit old i) as Hb.
  { intros i Hi. unfold new. rewrite Z.mod_pow2_bits_low by lia. unfold code_value, mask_of.
    rewrite Z.shiftl_0_r, Z.lor_spec, !Z.land_spec, Z.lnot_spec by lia.
    replace (2 ^ w - 1) with (Z.ones w) by (rewrite Z.ones_equiv; lia).
    rewrite Z.testbit_ones by lia. replace (0 <=? i) with true by lia. cbn [andb].
    destruct (i <? w); cbn [negb]; rewrite ?andb_false_r, ?andb_true_r, ?orb_false_r; reflexivity. }
  assert (forall i, n <= i -> Z.testbit new i = false) as Hh by (intros i Hi; unfold new; now rewrite Z.mod_pow2_bits_high by lia).
  unfold bits. rewrite Z.pow_0_r, Z.div_1_r. split.
  - apply Z.bits_inj'. intros i Hi. destruct (Z.lt_ge_cases i w).
    + rewrite !Z.mod_pow2_bits_low by lia. rewrite Hb by lia. now replace (i <? w) with true by blia.
    + now rewrite !Z.mod_pow2_bits_high by lia.
  - apply Z.bits_inj'. intros i Hi. rewrite <- !Z.shiftr_div_pow2, !Z.shiftr_spec by lia.
    destruct (Z.lt_ge_cases (i + w) n).
    + rewrite Hb by lia. now replace (i + w <? w) with false by blia.
    + rewrite Hh by lia. symmetry. rewrite <- (Z.mod_small old (2 ^ n)) by lia. now rewrite Z.mod_pow2_bits_high by lia.
Qed.

Lemma part_width p n main lo w s sz v : is_intel (p_cpu p) = true -> In (n, (main, lo, w)) (intel_parts p) ->
  whole p s -> reg_holds p s main sz v -> lo + w <= 8 * sz.
Proof.
  intros Hi Hin Hw (o & H & _).
  destruct (layout_bounds _ (fields_pos p) _ _ _ _ H) as (_ & _ & _ & _ & H').
  clear - Hi Hin H'.
  assert (forallb (fun f : text * Z => forallb (fun x : text * (text * Z * Z) =>
     let '(n, (m, l, w)) := x in negb (text_eqb m (fst f)) || (l + w <=? 8 * snd f)) (intel_parts p)) (register_fields p) = true) as Hc.
  { destruct p as [[] [] [] []]; try discriminate Hi; vm_compute; reflexivity. }
  rewrite forallb_forall in Hc. specialize (Hc _ H'). rewrite forallb_forall in Hc. specialize (Hc _ Hin). cbn [fst snd] in Hc.
  rewrite text_eqb_refl in Hc. cbn [negb orb] in Hc. blia.
Qed.

Lemma setreg_low K p s name main w sz old v :
  is_intel (p_cpu p) = true -> rk_get K = None -> (forall r, rk_set K r = None) -> whole p (r_regs s) ->
  In (name, (main, 0, w)) (intel_parts p) -> reg_holds p (r_regs s) main sz old ->
  exists s' new, setreg K p name v s = (s', Ok tt) /\ reg_holds p (r_regs s') main sz new /\
    bits new 0 w = v mod 2 ^ w /\ new / 2 ^ w = old / 2 ^ w /\ only_changed p (r_regs s) (r_regs s') main.
Proof.
  intros Hi Hk Hs Hw Hin Hh. pose proof (intel_readable p Hi) as Hr.
  destruct (part_sub p name main 0 w Hi Hin) as (Hd & H1 & _).
  destruct (setreg_sub K p s name main 0 (mask_of w) sz old v Hr Hk Hs Hw Hd Hh) as (s' & E & A & B).
  pose proof (part_width p _ _ _ _ _ _ _ Hi Hin Hw Hh) as Hwid.
  pose proof (holds_range _ _ _ _ _ Hw Hh) as [Hsz Hrg].
  destruct (code_value_low old v w (8 * sz) H1 ltac:(lia) Hrg) as (C & D).
  exists s', (code_value old v 0 (mask_of w) mod 2 ^ (8 * sz)). auto.
Qed.

(** a failing setreg leaves the registers alone *)
Lemma setreg_fail K p name v s s' e : setreg K p name v s = (s', Err e) -> r_regs s' = r_regs s.
Proof.
  unfold setreg. unfold rbind at 1. pose proof (getregs_regs K p s) as Hg. destruct (getregs K p s) as [s1 [regs|e1]]; cbn in Hg.
  2:{ intros [= <- <-]. exact Hg. }
  unfold rbind at 1.
  assert (forall n x, (if negb (name_in n (REGISTER_NAMES p)) then rerr EProcessError
            else regs0 <- rlift (set_field (p_bigendian p) (register_fields p) regs n x);; setregs K regs0) s1 = (s', Err e) ->
          r_regs s' = r_regs s) as Hend.
  { intros n x. destruct (negb _); [intros [= <- <-]; exact Hg|].
    unfold rbind, rlift. destruct (set_field _ _ _ _ _) as [r'|e2]; [|intros [= <- <-]; exact Hg].
    unfold setregs, ptrace_setregs, rbind, rnote. destruct (rk_set K r'); [|discriminate].
    intros [= <- <-]. exact Hg. }
  destruct (dget _ _ _) as [[[m sh] mk]|].
  - unfold rbind, rlift at 1. destruct (get_field _ _ _ _) as [fv|e2]; [|intros [= <- <-]; exact Hg].
    destruct mk; cbn; [apply Hend|intros [= <- <-]; exact Hg].
  - cbn. apply Hend.
Qed.

(** ** Instruction, stack and frame pointers *)
Definition pointer_okb (p : platform) (o : option text) : bool :=
  match o with
  | Some r => name_in r (REGISTER_NAMES p) && match dget text_eqb r (CPU_SUB_REGISTERS p) with None => true | _ => false end
  | None => true
  end.
Lemma linux_pointers p : p_os p = Linux -> native p ->
  pointer_okb p (CPU_INSTR_POINTER p) && pointer_okb p (CPU_STACK_POINTER p) && pointer_okb p (CPU_FRAME_POINTER p) = true.
Proof. destruct p as [[] [] [] []]; unfold native; cbn; intros Ho H; try discriminate; vm_compute; reflexivity. Qed.
Lemma linux_readable p : p_os p = Linux -> readable p = true.
Proof. intros H. unfold readable, has_ptrace_getregset, running_linux. rewrite H. apply orb_true_r. Qed.
Lemma pointer_get K p s r sz v : p_os p = Linux -> pointer_okb p (Some r) = true ->
  rk_get K = None -> whole p (r_regs s) -> reg_holds p (r_regs s) r sz v -> getreg K p r s = (noted GetRegs s, Ok v).
Proof.
  intros Ho Hp Hk Hw Hh. cbn in Hp. apply andb_prop in Hp as [_ Hp].
  apply (getreg_full K p s r sz v (linux_readable p Ho) Hk Hw); auto. now destruct (dget _ _ _).
Qed.

(** ** dumpRegs *)
Lemma mapM_Ok {A B} (f : A -> res B) (g : A -> B) l : (forall x, In x l -> f x = Ok (g x)) -> mapM f l = Ok (map g l).
Proof.
  induction l as [|x l IH]; intros H; cbn; auto. rewrite H by now left. cbn. rewrite IH; [reflexivity|].
  intros y Hy. apply H. now right.
Qed.
Definition value_of (p : platform) (s : list byte) (n : text) : Z :=
  match get_field (p_bigendian p) (register_fields p) s n with Ok v => v | Err _ => 0 end.
Lemma sizes_small p : Forall (fun f : text * Z => snd f <= 8) (register_fields p).
Proof.
  assert (forallb (fun f : text * Z => snd f <=? 8) (register_fields p) = true) as H.
  { destruct p as [[] [] [] []]; vm_compute; reflexivity. }
  apply Forall_forall. rewrite forallb_forall in H. intros x Hx. specialize (H x Hx). lia.
Qed.
Lemma dumpRegs_lines p s : whole p s ->
  exists lines, dumpRegs p s = Ok lines /\ List.length lines = List.length (REGISTER_NAMES p) /\
    forall i name, nth_error (REGISTER_NAMES p) i = Some name ->
      exists pad shown sz v, nth_error lines i = Some (repeat " "%char pad ++ name ++ T " = " ++ shown) /\
        reg_holds p s name sz v /\ hex_text shown v.
Proof.
  intros Hw. unfold dumpRegs.
  set (w := fold_right _ _ _).
  rewrite (mapM_Ok _ (fun f : text * Z => padl w " "%char (fst f) ++ T " = " ++ formatWordHex p (value_of p s (fst f)))).
  - eexists. split; [reflexivity|]. unfold REGISTER_NAMES. rewrite !map_length. split; [reflexivity|].
    intros i name Hi. rewrite nth_error_map in Hi |- *. destruct (nth_error (register_fields p) i) as [[n sz]|] eqn:E; [|discriminate].
    cbn in Hi. injection Hi as ->. cbn [option_map fst].
    destruct (name_holds p s name) as (sz' & v & Hh).
    { unfold REGISTER_NAMES. apply in_map_iff. exists (name, sz). split; [reflexivity|]. eapply nth_error_In; eauto. }
    exists (w - List.length name)%nat, (formatWordHex p v), sz', v. split; [|split; [exact Hh|]].
    + unfold padl, value_of. rewrite (holds_get _ _ _ _ _ Hw Hh). now rewrite <- app_assoc.
    + apply wordhex_spec. pose proof (holds_range _ _ _ _ _ Hw Hh) as [_ ?]. lia.
  - intros [n sz] Hin. cbn [fst snd].
    destruct (name_holds p s n) as (sz' & v & Hh).
    { unfold REGISTER_NAMES. apply in_map_iff. exists (n, sz). auto. }
    unfold value_of. rewrite (holds_get _ _ _ _ _ Hw Hh). cbn [bind].
    pose proof (sizes_small p) as Hs. rewrite Forall_forall in Hs. specialize (Hs _ Hin). cbn in Hs.
    replace (sz =? 32) with false by blia. replace (sz =? 16) with false by blia. reflexivity.
Qed.

(** ** Without PTRACE_GETREGS *)
Lemma peek_all K p offsets s : (forall o, exists w, rk_peekuser K o = Ok w /\ 0 <= w < 2 ^ (8 * word_size p)) ->
  exists words, peek_words K p offsets s = (RState (r_regs s) (rev (map (fun o => PeekUser (o * word_size p)) offsets) ++ r_calls s), Ok words) /\ List.length words = List.length offsets.
Proof.
  intros H. revert s. induction offsets as [|o offsets IH]; intros s; [exists []; destruct s; split; reflexivity|].
  cbn [peek_words]. unfold rbind, rnote, rlift. destruct (H (o * word_size p)) as (w & -> & Hw).
  unfold word2bytes. assert (0 <= w < 256 ^ Z.of_nat (word_bytes p)) as Hb by (unfold word_bytes, word_size in *; destruct (p_64bits p); exact Hw).
  rewrite (pack_ok _ _ _ Hb). set (b := if p_bigendian p then _ else _).
  destruct (IH (RState (r_regs s) (PeekUser (o * word_size p) :: r_calls s))) as (words & -> & E). exists (b :: words). cbn [r_regs r_calls rev map rret List.length].
  split; [|now rewrite E]. unfold rret. rewrite <- app_assoc. reflexivity.
Qed.
Lemma powerpc_registers K p name s : In (p_os p) [FreeBSD; MacOSX] -> In (p_cpu p) [PPC32; PPC64] -> (forall o, exists w, rk_peekuser K o = Ok w /\ 0 <= w < 2 ^ (8 * word_size p)) ->
  In name (REGISTER_NAMES p) -> exists s', getreg K p name s = (s', Err ETypeError) /\
    r_calls s' = rev (map (fun o => PeekUser (o * word_size p)) (zrange (Z.to_nat (76 / word_size p)))) ++ r_calls s.
Proof.
  intros Ho Hc Hk Hn. unfold getreg.
  assert (CPU_SUB_REGISTERS p = []) as -> by (unfold CPU_SUB_REGISTERS; destruct Hc as [<-|[<-|[]]]; reflexivity). cbn [dget].
  apply name_in_spec in Hn. rewrite Hn. cbn [negb]. unfold rbind at 1, getregs.
  assert (has_ptrace_getregs p = false /\ has_ptrace_getregset p = false) as [-> ->].
  { unfold has_ptrace_getregs, has_ptrace_getregset, running_linux. destruct Ho as [<-|[<-|[]]], Hc as [<-|[<-|[]]]; split; reflexivity. }
  cbn [orb].
  assert (sizeof (register_fields p) = 76) as ->.
  { unfold register_fields. destruct Ho as [<-|[<-|[]]], Hc as [<-|[<-|[]]]; unfold freebsd_i386_fields; vm_compute; reflexivity. }
  unfold rbind at 1. destruct (peek_all K p (zrange (Z.to_nat (76 / word_size p))) s Hk) as (words & -> & E).
  destruct words as [|b words].
  - exfalso. unfold word_size in E. destruct (p_64bits p); vm_compute in E; discriminate E.
  - eexists. split; [reflexivity|]. reflexivity.
Qed.
