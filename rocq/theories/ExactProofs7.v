(** * ExactProofs7: the sub-registers that are read wrongly. *)
From Coq Require Import ZArith List Ascii String Bool Lia.
From Verif Require Import PyBase PyFacts Platform IntModel IntSpec IntProofs StructModel StructProofs RegModel RegSpec RegProofs RegFinal ExactProofs4.
Import ListNotations.
Open Scope Z_scope.

Lemma eax_exact K p s c sz v : p_cpu p = X86_64 -> rk_get K = None -> whole p (r_regs s) -> In c (T "abcd") -> reg_holds p (r_regs s) (main_name p c) sz v ->
  exists s', getreg K p (T "e" ++ [c] ++ T "x") s = (s', Ok (v / 2 ^ 32)) /\ r_regs s' = r_regs s.
Proof.
  intros Hc Hk Hw Hin Hh. assert (is_intel (p_cpu p) = true) as Hi by now rewrite Hc. eexists. split.
  - rewrite (getreg_eq K p s _ (main_name p c) 32 None sz v (intel_readable p Hi) Hk Hw); [rewrite Z.shiftr_div_pow2 by lia; reflexivity| |exact Hh].
    unfold CPU_SUB_REGISTERS, main_name. rewrite Hc. cbn in Hin. repeat destruct Hin as [<-|Hin]; try reflexivity. destruct Hin.
  - reflexivity.
Qed.
Lemma two_bits v : bits v 12 2 = 2 * bits v 13 1 + bits v 12 1.
Proof.
  unfold bits. replace (2 ^ 13) with (2 ^ 12 * 2) by reflexivity. rewrite <- Z.div_div by lia. change (2 ^ 1) with 2. change (2 ^ 2) with (2 * 2). rewrite Z.rem_mul_r by lia. lia.
Qed.
Lemma land_two v : 0 <= v -> Z.land (Z.shiftr v 12) 2 = 2 * bits v 13 1.
Proof.
  intros Hv. unfold bits. apply Z.bits_inj'. intros n Hn. rewrite Z.land_spec, Z.shiftr_spec by lia. change (2 ^ 1) with 2. change (2 * (v / 2 ^ 13 mod 2)) with (2 ^ 1 * (v / 2 ^ 13 mod 2)). rewrite Z.mul_comm, <- Z.shiftl_mul_pow2, Z.shiftl_spec by lia. change 2 with (2 ^ 1) at 3.
  destruct (Z.eq_dec n 1) as [->|H].
  - rewrite Z.mod_pow2_bits_low, Z.div_pow2_bits by lia. change (Z.testbit 2 1) with true. rewrite andb_true_r. reflexivity.
  - change 2 with (2 ^ 1) at 1. rewrite Z.pow2_bits_eqb by lia. destruct (Z.eqb_spec 1 n); [lia|]. rewrite andb_false_r. symmetry. destruct (Z.eq_dec n 0) as [->|].
    + now rewrite Z.testbit_neg_r by lia.
    + apply Z.mod_pow2_bits_high. lia.
Qed.
Lemma iopl_exact K p s sz v : is_intel (p_cpu p) = true -> rk_get K = None -> whole p (r_regs s) -> reg_holds p (r_regs s) (T "eflags") sz v ->
  exists s', getreg K p (T "iopl") s = (s', Ok (2 * bits v 13 1)) /\ r_regs s' = r_regs s /\ (2 * bits v 13 1 = bits v 12 2 <-> bits v 12 1 = 0).
Proof.
  intros Hi Hk Hw Hh. assert (0 <= v) as Hv by (destruct Hh as (o & _ & <-); apply value_range). eexists. split; [|split].
  - rewrite (getreg_eq K p s _ (T "eflags") 12 (Some 2) sz v (intel_readable p Hi) Hk Hw); [|unfold CPU_SUB_REGISTERS; destruct (p_cpu p); try discriminate Hi; reflexivity|exact Hh].
    cbn [Z.eqb Pos.eqb]. rewrite land_two by exact Hv. reflexivity.
  - reflexivity.
  - rewrite two_bits. lia.
Qed.
