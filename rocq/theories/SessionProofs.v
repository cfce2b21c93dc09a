From Coq Require Import ZArith List Ascii String Bool Lia.
From Verif Require Import PyBase PyFacts Platform IntModel IntSpec IntProofs CallModel MemModel MemSpec MemProofs MemProofs2 MemProofs3 MemFinal
  StructModel StructProofs RegModel RegSpec RegProofs RegFinal BreakModel BreakSpec BreakProofs BreakFinal SessionModel SessionSpec.
Import ListNotations.
Open Scope Z_scope.

(** ** The instruction pointer *)
Definition intel_native (p : platform) : Prop := p_os p = Linux /\ is_intel (p_cpu p) = true /\ native p.
Lemma pc_place p : intel_native p -> exists name o, arch_pc (p_cpu p) = Some name /\ CPU_INSTR_POINTER p = Some name /\
  In (name, (o, word_size p)) (layout 0 (register_fields p)) /\ pointer_okb p (Some name) = true.
Proof.
  intros (Ho & Hi & Hn). destruct p as [o c w b]. cbn in Ho, Hi, Hn. subst o. unfold native in Hn. cbn in Hn.
  destruct c; try discriminate; destruct w, b; try discriminate; eexists _, _; (split; [reflexivity|]); (split; [reflexivity|]);
    (split; [|vm_compute; reflexivity]); vm_compute.
  all: repeat (first [left; reflexivity | right]).
Qed.
Lemma field_fun p o sz o' sz' : pc_field p o sz -> pc_field p o' sz' -> o = o' /\ sz = sz'.
Proof.
  intros (n & A & B) (n' & A' & B'). rewrite A in A'. injection A' as <-.
  pose proof (find_field _ (fields_nodup p) _ _ _ B) as E. pose proof (find_field _ (fields_nodup p) _ _ _ B') as E'.
  rewrite E in E'. injection E' as -> ->. auto.
Qed.
Lemma pc_fun p r v v' : pc p r v -> pc p r v' -> v = v'.
Proof. intros (o & sz & F & <-) (o' & sz' & F' & <-). destruct (field_fun _ _ _ _ _ F F') as [-> ->]. reflexivity. Qed.
Lemma pc_exists p r : intel_native p -> exists v, pc p r v.
Proof.
  intros H. destruct (pc_place p H) as (n & o & A & _ & B & _). exists (host_value (p_bigendian p) (firstn (Z.to_nat (word_size p)) (skipn (Z.to_nat o) r))).
  exists o, (word_size p). split; [exists n; auto|reflexivity].
Qed.
Lemma pc_holds p r v name : arch_pc (p_cpu p) = Some name -> (pc p r v <-> exists sz, reg_holds p r name sz v).
Proof.
  intros Hn. split.
  - intros (o & sz & (n & A & B) & E). rewrite Hn in A. injection A as <-. exists sz, o. auto.
  - intros (sz & o & B & E). exists o, sz. split; [exists name; auto|exact E].
Qed.
Lemma pc_range p r v : intel_native p -> whole p r -> pc p r v -> 0 <= v < 2 ^ (8 * word_size p).
Proof.
  intros H Hw (o & sz & F & <-). destruct (pc_place p H) as (n & o' & A & _ & B & _).
  destruct (field_fun p o sz o' (word_size p)) as [-> ->]; [exact F|exists n; auto|].
  apply (holds_range p r n (word_size p) _ Hw). exists o'. auto.
Qed.
Lemma get_pc K p s v : intel_native p -> rk_get K = None -> whole p (r_regs s) -> pc p (r_regs s) v ->
  getInstrPointer K p s = (noted GetRegs s, Ok v).
Proof.
  intros H Hk Hw Hv. destruct (pc_place p H) as (n & o & A & C & B & P). unfold getInstrPointer. rewrite C.
  destruct (proj1 (pc_holds p _ _ n A) Hv) as (sz & Hh). exact (pointer_get K p s n sz v (proj1 H) P Hk Hw Hh).
Qed.
Lemma bytes_value big s : host_bytes big (List.length s) (host_value big s) = s.
Proof.
  rewrite host_value_cases. unfold host_bytes.
  assert (forall l : list byte, le_value l mod 2 ^ (8 * Z.of_nat (List.length l)) = le_value l) as H.
  { intros l. apply Z.mod_small. rewrite <- pow256. apply (le_value_range l). }
  destruct big.
  - rewrite <- (rev_length s), H, le_bytes_value. apply rev_involutive.
  - rewrite H. apply le_bytes_value.
Qed.
Lemma pieces (s : list byte) o sz : 0 <= o -> 0 <= sz -> firstn (Z.to_nat o) s ++ field_bytes s o sz ++ skipn (Z.to_nat (o + sz)) s = s.
Proof.
  intros Ho Hs. unfold field_bytes. rewrite Z2Nat.inj_add by lia. rewrite <- (firstn_skipn (Z.to_nat o) s) at 4. f_equal.
  rewrite <- (firstn_skipn (Z.to_nat sz) (skipn (Z.to_nat o) s)) at 2. rewrite skipn_skipn. now rewrite Nat.add_comm.
Qed.
Lemma reset_pc K p s r v : intel_native p -> rk_get K = None -> (forall q, rk_set K q = None) -> whole p r -> pc p r v -> past_trap p r (r_regs s) ->
  exists s', setInstrPointer K p v s = (s', Ok tt) /\ r_regs s' = r.
Proof.
  intros H Hk Hs Hw Hv (o & sz & v' & F & P1 & P2 & L & F1 & F2). rewrite (pc_fun p _ _ _ P1 Hv) in *. clear v' P1.
  destruct (pc_place p H) as (n & o' & A & C & B & P).
  destruct (field_fun p o sz o' (word_size p)) as [-> ->]; [exact F|exists n; auto|].
  assert (whole p (r_regs s)) as Hw' by (unfold whole in *; lia).
  assert (sizeof (register_fields p) <= zlen r) as Hl by (rewrite Hw; lia).
  destruct (in_layout _ (fields_pos p) _ _ _ r B Hl) as (Q1 & Q2 & Q3).
  unfold setInstrPointer. rewrite C. unfold setreg. unfold rbind at 1. rewrite (getregs_ok K p s (linux_readable p (proj1 H)) Hk).
  apply andb_prop in P as [P0 P]. destruct (dget text_eqb n (CPU_SUB_REGISTERS p)) eqn:Ed; [discriminate|].
  unfold rbind at 1, rret. rewrite P0. cbn [negb]. unfold rbind, rlift.
  rewrite (set_field_ok (p_bigendian p) _ (fields_nodup p) n o' (word_size p) (r_regs s) v B).
  unfold setregs, ptrace_setregs, rbind, rnote. rewrite Hs. eexists. split; [reflexivity|]. cbn [r_regs].
  unfold update. rewrite F1, F2. rewrite <- (pieces r o' (word_size p)) at 3 by lia. f_equal. f_equal.
  destruct Hv as (o2 & sz2 & F3 & <-). destruct (field_fun p o2 sz2 o' (word_size p)) as [-> ->]; [exact F3|exact F|].
  rewrite <- (field_bytes_length _ (fields_pos p) n o' (word_size p) r B Hl) at 1. exact (bytes_value (p_bigendian p) (field_bytes r o' (word_size p))).
Qed.
Lemma trap_regs p r v : intel_native p -> whole p r -> pc p r v -> v + 1 < 2 ^ (8 * word_size p) -> exists r', past_trap p r r'.
Proof.
  intros H Hw Hv Hr. destruct (pc_place p H) as (n & o & A & C & B & P).
  assert (sizeof (register_fields p) <= zlen r) as Hl by (rewrite Hw; lia).
  destruct (in_layout _ (fields_pos p) _ _ _ r B Hl) as (Q1 & Q2 & Q3).
  assert (pc_field p o (word_size p)) as F by (exists n; auto).
  set (b := host_bytes (p_bigendian p) (Z.to_nat (word_size p)) (v + 1)).
  assert (zlen b = word_size p) as Hb by (unfold b, zlen; rewrite host_bytes_length; lia).
  pose proof (pc_range p r v H Hw Hv) as [Hv0 _].
  exists (update r o (word_size p) b). exists o, (word_size p), v. split; [exact F|]. split; [exact Hv|]. split.
  - exists o, (word_size p). split; [exact F|]. change (host_value (p_bigendian p) (field_bytes (update r o (word_size p) b) o (word_size p)) = v + 1).
    rewrite update_same by lia. unfold b. rewrite host_bytes_value. rewrite Z2Nat.id by lia. apply Z.mod_small. lia.
  - split; [apply update_length; lia|]. unfold update, zlen in *. split.
    + rewrite firstn_app, firstn_firstn, Nat.min_id, firstn_length. replace (Z.to_nat o - Nat.min (Z.to_nat o) (List.length r))%nat with O by lia.
      cbn [firstn]. now rewrite app_nil_r.
    + rewrite app_assoc, skipn_app, skipn_all2 by (rewrite app_length, firstn_length; lia).
      rewrite app_length, firstn_length. replace (Z.to_nat (o + word_size p) - _)%nat with O by lia. reflexivity.
Qed.
