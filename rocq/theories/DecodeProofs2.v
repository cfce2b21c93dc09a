(** * DecodeProofs2: the list of the instructions kept from Decode(). *)
From Coq Require Import ZArith List Ascii String Bool Lia.
From Verif Require Import PyBase DecodeModel DecodeSpec DecodeProofs.
Import ListNotations.
Open Scope Z_scope.

(** [l] cut into batches of 100 *)
Inductive cut : list dinst -> list (list dinst) -> Prop :=
| cut_nil : cut [] []
| cut_last l : l <> [] -> (List.length l <= 100)%nat -> cut l [l]
| cut_more b l bs : List.length b = 100%nat -> l <> [] -> cut l bs -> cut (b ++ l) (b :: bs).
Definition latest (n j : nat) : nat := (j + 100 * ((n - 1 - j) / 100))%nat.
Lemma latest_small n j : (n <= 100)%nat -> (j < n)%nat -> latest n j = j.
Proof. intros H1 H2. unfold latest. rewrite Nat.div_small by lia. lia. Qed.
Lemma latest_more n j : (j < n)%nat -> latest (100 + n) j = (100 + latest n j)%nat.
Proof. intros H. unfold latest. replace (100 + n - 1 - j)%nat with (n - 1 - j + 1 * 100)%nat by lia. rewrite Nat.div_add by lia. lia. Qed.
Lemma nth_overwrite array new j : nth_error (overwrite array new) j = if (j <? List.length new)%nat then nth_error new j else nth_error array j.
Proof.
  unfold overwrite. destruct (j <? List.length new)%nat eqn:E.
  - apply Nat.ltb_lt in E. now rewrite nth_error_app1.
  - apply Nat.ltb_ge in E. rewrite nth_error_app2 by exact E. revert j E array. induction new as [|x new IH]; intros j E array; cbn [List.length skipn]; [now rewrite Nat.sub_0_r|].
    cbn [List.length] in E. destruct j; [lia|]. destruct array as [|y array]; [now destruct (S j - S (List.length new))%nat|]. cbn [nth_error Nat.sub]. apply IH. lia.
Qed.
Lemma cut_array l bs : cut l bs -> forall array j, (j < 100)%nat ->
  nth_error (fold_left overwrite bs array) j = if (j <? List.length l)%nat then nth_error l (latest (List.length l) j) else nth_error array j.
Proof.
  induction 1 as [|l Hn Hl|b l bs Hb Hn C IH]; intros array j Hj; cbn [fold_left].
  - reflexivity.
  - rewrite nth_overwrite. destruct (j <? List.length l)%nat eqn:E; [|reflexivity]. apply Nat.ltb_lt in E. now rewrite latest_small.
  - rewrite (IH _ j Hj). rewrite app_length, Hb. destruct (j <? List.length l)%nat eqn:E.
    + apply Nat.ltb_lt in E. assert ((j <? 100 + List.length l)%nat = true) as -> by (apply Nat.ltb_lt; lia). rewrite (latest_more _ _ E), nth_error_app2 by lia. f_equal. lia.
    + apply Nat.ltb_ge in E. assert ((j <? 100 + List.length l)%nat = true) as -> by (apply Nat.ltb_lt; lia). rewrite nth_overwrite, Hb. assert ((j <? 100)%nat = true) as -> by (apply Nat.ltb_lt; lia).
      unfold latest. rewrite Nat.div_small by lia. rewrite nth_error_app1 by lia. f_equal. lia.
Qed.
Lemma nth_firstn {A} n (l : list A) i : (i < n)%nat -> nth_error (firstn n l) i = nth_error l i.
Proof. revert l i. induction n as [|n IH]; intros l i H; [lia|]. destruct l as [|x l]; [reflexivity|]. destruct i; [reflexivity|]. cbn. apply IH. lia. Qed.
Lemma cut_kept (array : list dinst) l bs : cut l bs -> (forall j, (j < 100)%nat -> (j < List.length l)%nat -> nth_error array j <> None) -> forall i, (i < List.length l)%nat ->
  nth_error (flat_map (fun batch => firstn (List.length batch) array) bs) i = nth_error array (i mod 100).
Proof.
  induction 1 as [|l Hn Hl|b l bs Hb Hn C IH]; intros Ha i Hi; cbn [flat_map].
  - cbn in Hi. lia.
  - rewrite app_nil_r, nth_firstn by exact Hi. now rewrite Nat.mod_small by lia.
  - rewrite app_length in Hi. assert (100 <= List.length array)%nat as Hl.
    { destruct (Nat.le_gt_cases 100 (List.length array)) as [H|H]; [exact H|]. exfalso. apply (Ha (List.length array)); [exact H|rewrite app_length; lia|]. apply nth_error_None. lia. }
    assert (List.length (firstn (List.length b) array) = 100%nat) as Hf by (rewrite firstn_length; lia).
    destruct (Nat.lt_ge_cases i 100) as [H|H].
    + rewrite nth_error_app1 by lia. rewrite nth_firstn by lia. now rewrite Nat.mod_small.
    + rewrite nth_error_app2 by lia. rewrite Hf, IH; [|intros j Hj _; apply nth_error_Some; lia|lia]. f_equal.
      replace i with (i - 100 + 1 * 100)%nat at 2 by lia. rewrite Nat.mod_add by lia. reflexivity.
Qed.
Lemma cut_length (array : list dinst) l bs : cut l bs -> (forall j, (j < 100)%nat -> (j < List.length l)%nat -> nth_error array j <> None) ->
  List.length (flat_map (fun batch => firstn (List.length batch) array) bs) = List.length l.
Proof.
  intros C. induction C as [|l Hn Hl|b l bs Hb Hn C IH]; intros Ha; cbn [flat_map]; [reflexivity| |].
  - rewrite app_nil_r, firstn_length. destruct (Nat.le_gt_cases (List.length l) (List.length array)) as [H|H]; [lia|]. exfalso. apply (Ha (List.length array)); [lia|exact H|]. apply nth_error_None. lia.
  - assert (100 <= List.length array)%nat as Hl.
    { destruct (Nat.le_gt_cases 100 (List.length array)) as [H|H]; [exact H|]. exfalso. apply (Ha (List.length array)); [exact H|rewrite app_length; lia|]. apply nth_error_None. lia. }
    rewrite !app_length, IH; [|intros j Hj _; apply nth_error_Some; lia]. rewrite firstn_length. lia.
Qed.
Section D.
  Context (internal_decode : Z -> list byte -> Z -> Z * list dinst) (one : Z -> list byte -> option dinst) (Hs : sensible one) (Hd : decodes internal_decode one).
  Lemma batches_cut fuel : forall offset code, (List.length code < fuel)%nat -> cut (all_instructions one offset code) (decode_batches internal_decode fuel offset code (zlen code)).
  Proof using Hs Hd.
    induction fuel as [|fuel IH]; intros offset code Hf; [lia|]. cbn [decode_batches].
    destruct (zlen code <=? 0) eqn:E0; [apply Z.leb_le in E0; destruct code; [constructor|unfold zlen in E0; cbn in E0; lia]|].
    destruct (Hd offset code MAX_INSTRUCTIONS) as (H1 & H2 & _); [reflexivity|]. destruct (internal_decode offset code MAX_INSTRUCTIONS) as [r result]. cbn [fst snd] in *.
    apply Z.eqb_neq in H2. rewrite H2. cbn [orb].
    destruct (instructions_split one Hs 100 (List.length code) offset code (le_n _)) as (E1 & H4). fold (all_instructions one offset code) in E1, H4.
    change (Z.to_nat MAX_INSTRUCTIONS) with 100%nat in H1. rewrite <- H1 in E1, H4.
    destruct (zlen result =? 0) eqn:Er.
    { apply Z.eqb_eq in Er. destruct result; [|unfold zlen in Er; cbn in Er; lia]. symmetry in H1. destruct (all_instructions one offset code); [constructor|discriminate H1]. }
    apply Z.eqb_neq in Er. rewrite fold_total, Z.add_0_l. set (t := total result) in *.
    assert (zlen code - t = zlen (skipn (Z.to_nat t) code)) as -> by (unfold zlen in *; rewrite skipn_length; lia).
    assert (1 <= t) as Ht by (unfold t; rewrite H1; apply (first_size one Hs 99); rewrite <- H1; intros ->; apply Er; reflexivity).
    assert (instructions one (List.length code) (offset + t) (skipn (Z.to_nat t) code) = all_instructions one (offset + t) (skipn (Z.to_nat t) code)) as E2
      by (unfold all_instructions; apply (instructions_more one Hs); [rewrite skipn_length; lia|lia]).
    rewrite E2 in E1. clear E2. destruct (all_instructions one (offset + t) (skipn (Z.to_nat t) code)) as [|i rest] eqn:E2.
    - rewrite (no_batch internal_decode one Hs Hd fuel _ _ _ (le_n _) E2). rewrite app_nil_r in E1. rewrite E1. apply cut_last; [intros ->; apply Er; reflexivity|].
      rewrite H1, firstn_length. lia.
    - rewrite E1. apply cut_more; [|discriminate|].
      + assert (List.length (all_instructions one offset code) = (List.length result + S (List.length rest))%nat) as L by (rewrite E1 at 1; rewrite app_length; reflexivity).
        assert (List.length result = Nat.min 100 (List.length (all_instructions one offset code))) as M by (rewrite H1 at 1; apply firstn_length). lia.
      + rewrite <- E2. apply IH. rewrite skipn_length. unfold zlen in H4. lia.
  Qed.
End D.
Lemma latest_lt n j : (j < n)%nat -> (latest n j < n)%nat.
Proof. intros H. unfold latest. pose proof (Nat.mul_div_le (n - 1 - j) 100 ltac:(lia)). lia. Qed.
Theorem list_kept internal_decode one offset code fuel : sensible one -> decodes internal_decode one -> (List.length code < fuel)%nat ->
  let all := all_instructions one offset code in let n := List.length all in
  List.length (Decode_list internal_decode fuel offset code) = n /\
  forall i, (i < n)%nat -> exists k, (k < n)%nat /\ (n <= k + 100)%nat /\ (k mod 100 = i mod 100)%nat /\ nth_error (Decode_list internal_decode fuel offset code) i = nth_error all k.
Proof.
  intros Hs Hd Hf all n. pose proof (batches_cut internal_decode one Hs Hd fuel offset code Hf) as C. fold all in C. unfold Decode_list, kept. set (bs := decode_batches _ _ _ _ _) in *.
  pose proof (cut_array _ _ C []) as A. fold n in A. set (array := fold_left overwrite bs []) in *.
  assert (forall j, (j < 100)%nat -> (j < n)%nat -> nth_error array j = nth_error all (latest n j)) as A1.
  { intros j H1 H2. rewrite (A j H1). assert ((j <? n)%nat = true) as -> by (now apply Nat.ltb_lt). reflexivity. }
  assert (forall j, (j < 100)%nat -> (j < n)%nat -> nth_error array j <> None) as A2.
  { intros j H1 H2. rewrite (A1 j H1 H2). apply nth_error_Some. fold n. now apply latest_lt. }
  split; [exact (cut_length array _ _ C A2)|]. intros i Hi. assert (i mod 100 < 100)%nat as M by (apply Nat.mod_upper_bound; lia). assert (i mod 100 <= i)%nat as M2 by (apply Nat.mod_le; lia).
  exists (latest n (i mod 100)). split; [apply latest_lt; lia|]. split; [|split].
  - unfold latest. pose proof (Nat.div_mod (n - 1 - i mod 100) 100 ltac:(lia)). pose proof (Nat.mod_upper_bound (n - 1 - i mod 100) 100 ltac:(lia)). lia.
  - unfold latest. rewrite (Nat.mul_comm 100), Nat.mod_add by lia. apply Nat.mod_mod. lia.
  - rewrite (cut_kept array _ _ C A2 i Hi). apply A1; lia.
Qed.
