(** * DecodeProofs: lemmas about the binding of libdistorm64. *)
From Coq Require Import ZArith List Ascii String Bool Lia.
From Verif Require Import PyBase PyFacts TraceModel DecodeModel DecodeSpec.
Import ListNotations.
Open Scope Z_scope.

Lemma skipn_twice (A : Type) (l : list A) n : forall m, skipn n (skipn m l) = skipn (n + m) l.
Proof.
  induction l as [|x l IH]; intros m; [rewrite !skipn_nil; reflexivity|]. destruct m as [|m]; [now rewrite Nat.add_0_r|]. replace (n + S m)%nat with (S (n + m)) by apply plus_n_Sm. apply IH.
Qed.
Section D.
  Context (internal_decode : Z -> list byte -> Z -> Z * list dinst) (one : Z -> list byte -> option dinst).
  Context (Hs : sensible one) (Hd : decodes internal_decode one).
  Definition total (l : list dinst) : Z := fold_right (fun i n => di_size i + n) 0 l.
  Lemma fold_total l a : fold_left (fun size i => size + di_size i) l a = a + total l.
  Proof using. revert a. induction l as [|i l IH]; intros a; cbn [fold_left total fold_right]; [lia|]. rewrite IH. fold (total l). lia. Qed.
  (** More steps change nothing *)
  Lemma instructions_more n m offset code : (List.length code <= n)%nat -> (List.length code <= m)%nat -> instructions one n offset code = instructions one m offset code.
  Proof using Hs.
    clear Hd. revert m offset code. induction n as [|n IH]; intros m offset code Hn Hm.
    - destruct code; [|cbn in Hn; lia]. destruct m; reflexivity.
    - destruct code as [|c code]; [destruct m; reflexivity|]. destruct m as [|m]; [cbn in Hm; lia|]. cbn [instructions]. destruct (one offset (c :: code)) as [i|] eqn:E; [|reflexivity]. f_equal.
      destruct (Hs _ _ _ E) as (_ & H1). apply IH; rewrite skipn_length; cbn [List.length] in *; lia.
  Qed.
  Lemma instructions_split k : forall n offset code, (List.length code <= n)%nat ->
    instructions one n offset code = firstn k (instructions one n offset code) ++ instructions one n (offset + total (firstn k (instructions one n offset code))) (skipn (Z.to_nat (total (firstn k (instructions one n offset code)))) code) /\
    0 <= total (firstn k (instructions one n offset code)) <= zlen code.
  Proof using Hs.
    clear Hd. induction k as [|k IH]; intros n offset code Hn; [cbn [firstn total fold_right]; rewrite Z.add_0_r; change (Z.to_nat 0) with O; cbn [skipn app]; split; [reflexivity|]; unfold zlen; lia|].
    destruct n as [|n]; [destruct code; [|cbn in Hn; lia]; (split; [reflexivity|vm_compute; split; discriminate])|].
    destruct code as [|c code]; [(split; [reflexivity|vm_compute; split; discriminate])|]. cbn [instructions]. destruct (one offset (c :: code)) as [i|] eqn:E.
    2: { cbn [firstn total fold_right app]. change (Z.to_nat 0) with O. cbn [skipn]. rewrite Z.add_0_r, E. split; [reflexivity|unfold zlen; lia]. }
    destruct (Hs _ _ _ E) as (_ & H1). cbn [firstn]. cbn [total fold_right]. fold (total (firstn k (instructions one n (offset + di_size i) (skipn (Z.to_nat (di_size i)) (c :: code))))).
    assert (List.length (skipn (Z.to_nat (di_size i)) (c :: code)) <= n)%nat as Hn' by (rewrite skipn_length; cbn [List.length] in *; lia).
    destruct (IH n (offset + di_size i) (skipn (Z.to_nat (di_size i)) (c :: code)) Hn') as (E1 & H2).
    set (t := total (firstn k (instructions one n (offset + di_size i) (skipn (Z.to_nat (di_size i)) (c :: code))))) in *.
    unfold zlen in *. rewrite skipn_length in H2. split; [|lia].
    cbn [app]. f_equal. rewrite E1 at 1. f_equal. rewrite skipn_twice. replace (Z.to_nat (di_size i + t)) with (Z.to_nat t + Z.to_nat (di_size i))%nat by lia. rewrite Z.add_assoc.
    refine (instructions_more n (S n) (offset + di_size i + t) (skipn (Z.to_nat t + Z.to_nat (di_size i)) (c :: code)) _ _); rewrite skipn_length; cbn [List.length] in *; lia.
  Qed.
  Lemma first_size k offset code : firstn (S k) (all_instructions one offset code) <> [] -> 1 <= total (firstn (S k) (all_instructions one offset code)).
  Proof using Hs.
    clear Hd. intros Hn. destruct code as [|c code]; [cbn in Hn; congruence|]. unfold all_instructions in *. cbn [List.length instructions] in *. destruct (one offset (c :: code)) as [i|] eqn:E; [|cbn in Hn; congruence].
    destruct (Hs _ _ _ E) as (_ & Hi). cbn [firstn total fold_right].
    destruct (instructions_split k (List.length code) (offset + di_size i) (skipn (Z.to_nat (di_size i)) (c :: code))) as (_ & H5); [rewrite skipn_length; cbn [List.length]; lia|].
    unfold total in H5. lia.
  Qed.
  Lemma decode_all fuel : forall offset code, (List.length code < fuel)%nat -> decode_loop internal_decode fuel offset code (zlen code) = (all_instructions one offset code, DDone).
  Proof using Hs Hd.
    induction fuel as [|fuel IH]; intros offset code Hf; [lia|]. cbn [decode_loop]. destruct (Z.eqb_spec (zlen code) 0) as [E0|E0].
    - destruct code; [reflexivity|unfold zlen in E0; cbn in E0; lia].
    - assert (zlen code <? 0 = false) as -> by (apply Z.ltb_ge; unfold zlen; lia).
      destruct (Hd offset code MAX_INSTRUCTIONS) as (H1 & H2 & H3); [reflexivity|]. destruct (internal_decode offset code MAX_INSTRUCTIONS) as [r result]. cbn [fst snd] in *.
      apply Z.eqb_neq in H2. rewrite H2. destruct (instructions_split 100 (List.length code) offset code (le_n _)) as (E1 & H4). fold (all_instructions one offset code) in E1, H4.
      change (Z.to_nat MAX_INSTRUCTIONS) with 100%nat in H1. rewrite <- H1 in E1, H4.
      destruct result as [|i result].
      + assert (r =? DECRES_MEMORYERR = false) as -> by (apply Z.eqb_neq, H3; reflexivity). cbn [andb]. change (zlen (@nil dinst) =? 0) with true. cbn iota.
        destruct (all_instructions one offset code); [reflexivity|discriminate].
      + assert (zlen (i :: result) =? 0 = false) as -> by (apply Z.eqb_neq; unfold zlen; cbn; lia). rewrite andb_false_r. rewrite fold_total. rewrite Z.add_0_l.
        set (t := total (i :: result)) in *.
        assert (1 <= t) as Ht by (unfold t; rewrite H1; apply (first_size 99); rewrite <- H1; discriminate).
        assert (zlen code - t = zlen (skipn (Z.to_nat t) code)) as El by (unfold zlen in *; rewrite skipn_length; lia). rewrite El, IH by (rewrite skipn_length; unfold zlen in H4; lia).
        f_equal. rewrite E1. f_equal. unfold all_instructions. apply instructions_more; [lia|]. rewrite skipn_length. lia.
  Qed.
  Lemma no_batch fuel offset code n : (List.length code <= n)%nat -> instructions one n offset code = [] -> decode_batches internal_decode fuel offset code (zlen code) = [].
  Proof using Hs Hd.
    intros Hn E. destruct fuel as [|fuel]; [reflexivity|]. cbn [decode_batches]. destruct (zlen code <=? 0); [reflexivity|].
    destruct (Hd offset code MAX_INSTRUCTIONS) as (H1 & _); [reflexivity|]. destruct (internal_decode offset code MAX_INSTRUCTIONS) as [r result]. cbn [snd] in H1.
    assert (all_instructions one offset code = []) as Ea by (rewrite <- E; apply instructions_more; [lia|exact Hn]). rewrite Ea, firstn_nil in H1. subst result. change (zlen (@nil dinst) =? 0) with true. now rewrite orb_true_r.
  Qed.
  Lemma one_batch fuel offset code : (List.length (all_instructions one offset code) <= 100)%nat -> (0 < fuel)%nat ->
    kept (decode_batches internal_decode fuel offset code (zlen code)) = all_instructions one offset code.
  Proof using Hs Hd.
    intros H100 Hf. destruct fuel as [|fuel]; [lia|]. cbn [decode_batches].
    destruct (zlen code <=? 0) eqn:E0; [apply Z.leb_le in E0; destruct code; [reflexivity|unfold zlen in E0; cbn in E0; lia]|].
    destruct (Hd offset code MAX_INSTRUCTIONS) as (H1 & H2 & _); [reflexivity|]. destruct (internal_decode offset code MAX_INSTRUCTIONS) as [r result]. cbn [fst snd] in *.
    apply Z.eqb_neq in H2. rewrite H2. cbn [orb].
    destruct (instructions_split 100 (List.length code) offset code (le_n _)) as (E1 & H4). fold (all_instructions one offset code) in E1, H4.
    change (Z.to_nat MAX_INSTRUCTIONS) with 100%nat in H1. rewrite <- H1 in E1, H4. rewrite firstn_all2 in H1 by exact H100. rewrite <- H1 in E1 |- *.
    destruct (zlen result =? 0) eqn:Er; [apply Z.eqb_eq in Er; destruct result; [reflexivity|unfold zlen in Er; cbn in Er; lia]|].
    rewrite fold_total, Z.add_0_l. set (t := total result) in *.
    assert (zlen code - t = zlen (skipn (Z.to_nat t) code)) as -> by (unfold zlen in *; rewrite skipn_length; lia).
    rewrite (no_batch fuel _ _ (List.length code)); [|rewrite skipn_length; lia|].
    - unfold kept, overwrite. cbn [fold_left flat_map]. rewrite skipn_nil, !app_nil_r. apply firstn_all.
    - rewrite <- (app_nil_r result) in E1 at 1. apply app_inv_head in E1. now symmetry.
  Qed.
  Lemma consecutive_all n : forall offset code, consecutive offset (instructions one n offset code).
  Proof using Hs.
    clear Hd. induction n as [|n IH]; intros offset code; [now destruct code|]. destruct code as [|c code]; [exact I|]. cbn [instructions]. destruct (one offset (c :: code)) as [i|] eqn:E; [|exact I]. split; [apply (Hs _ _ _ E)|apply IH].
  Qed.
End D.
Lemma Decode_right internal_decode one offset code fuel : sensible one -> decodes internal_decode one -> (List.length code < fuel)%nat ->
  Decode internal_decode fuel offset code = (all_instructions one offset code, DDone).
Proof. intros Hs Hd Hf. unfold Decode. now apply decode_all. Qed.
Lemma all_consecutive one offset code : sensible one -> consecutive offset (all_instructions one offset code).
Proof. intros Hs. now apply consecutive_all. Qed.
Lemma list_right internal_decode one offset code fuel : sensible one -> decodes internal_decode one -> (List.length (all_instructions one offset code) <= 100)%nat -> (0 < fuel)%nat ->
  Decode_list internal_decode fuel offset code = all_instructions one offset code.
Proof. intros Hs Hd H1 H2. unfold Decode_list. now apply one_batch. Qed.
(** An instruction without byte: the generator never ends *)
Lemma zero_size fuel : forall internal_decode offset code i, internal_decode offset code MAX_INSTRUCTIONS = (DECRES_SUCCESS, [i]) -> di_size i = 0 -> code <> [] ->
  snd (Decode internal_decode fuel offset code) = DNever.
Proof.
  intros d offset code i E Hi Hc. unfold Decode. assert (0 < zlen code) as Hl by (destruct code; [congruence|unfold zlen; cbn; lia]).
  induction fuel as [|fuel IH]; [reflexivity|]. cbn [decode_loop]. assert (zlen code =? 0 = false) as -> by (apply Z.eqb_neq; lia). assert (zlen code <? 0 = false) as -> by (apply Z.ltb_ge; lia). rewrite E.
  change (DECRES_SUCCESS =? DECRES_INPUTERR) with false. cbn [andb]. change (DECRES_SUCCESS =? DECRES_MEMORYERR) with false. cbn [andb]. change (zlen [i] =? 0) with false. cbn iota.
  assert (fold_left (fun size j => size + di_size j) [i] 0 = 0) as -> by (cbn [fold_left]; lia). change (Z.to_nat 0) with O. cbn [skipn]. rewrite Z.add_0_r, Z.sub_0_r. destruct (decode_loop d fuel offset code (zlen code)). exact IH.
Qed.
(** Its texts cannot be used *)
Lemma fallback_fails internal_decode fuel code address i l e : Decode internal_decode fuel address code = (i :: l, e) -> disassembleOne_fallback internal_decode fuel code address = Err ETypeError.
Proof. intros E. unfold disassembleOne_fallback. rewrite E. reflexivity. Qed.
Definition nop_one (offset : Z) (code : list byte) : option dinst := match code with _ :: _ => Some (DInst (T "NOP") [] (T "90") 1 offset) | [] => None end.
Definition nop_decode (offset : Z) (code : list byte) (maximum : Z) : Z * list dinst := (DECRES_SUCCESS, firstn (Z.to_nat maximum) (all_instructions nop_one offset code)).
Lemma nop_sensible : sensible nop_one.
Proof. intros offset code i. destruct code; [discriminate|]. intros [= <-]. cbn [di_offset di_size]. unfold zlen. cbn [List.length]. split; [reflexivity|]. lia. Qed.
Lemma nop_decodes : decodes nop_decode nop_one.
Proof. intros offset code maximum H. split; [reflexivity|]. split; [discriminate|]. intros _. discriminate. Qed.
Lemma fallback_wrong : exists internal_decode one code, sensible one /\ decodes internal_decode one /\ all_instructions one 4096 code <> [] /\ disassembleOne_fallback internal_decode (S (List.length code)) code 4096 = Err ETypeError.
Proof. exists nop_decode, nop_one, [z2b 144]. split; [exact nop_sensible|]. split; [exact nop_decodes|]. split; [discriminate|]. reflexivity. Qed.
(** 101 instructions: the first one kept is the last one *)
Lemma list_wrong : exists internal_decode one code i j l, sensible one /\ decodes internal_decode one /\
  all_instructions one 0 code = i :: l /\ nth_error (all_instructions one 0 code) 100 = Some j /\ hd_error (Decode_list internal_decode (S (List.length code)) 0 code) = Some j /\ di_offset i = 0 /\ di_offset j = 100.
Proof.
  exists nop_decode, nop_one, (repeat (z2b 144) 101), (DInst (T "NOP") [] (T "90") 1 0), (DInst (T "NOP") [] (T "90") 1 100), (tl (all_instructions nop_one 0 (repeat (z2b 144) 101))).
  split; [exact nop_sensible|]. split; [exact nop_decodes|]. split; [vm_compute; reflexivity|]. split; [vm_compute; reflexivity|]. split; [vm_compute; reflexivity|]. split; reflexivity.
Qed.
(** ** Result codes *)
Lemma Decode_first internal_decode fuel offset code r result : code <> [] -> internal_decode offset code MAX_INSTRUCTIONS = (r, result) ->
  (r = DECRES_INPUTERR -> Decode internal_decode (S fuel) offset code = ([], DValueError)) /\
  (r = DECRES_MEMORYERR -> result = [] -> Decode internal_decode (S fuel) offset code = ([], DMemoryError)) /\
  (r <> DECRES_INPUTERR -> r <> DECRES_MEMORYERR -> result = [] -> Decode internal_decode (S fuel) offset code = ([], DDone)) /\
  (r <> DECRES_INPUTERR -> result <> [] -> exists l e, Decode internal_decode (S fuel) offset code = (result ++ l, e)).
Proof.
  intros Hc Hd. unfold Decode. cbn [decode_loop].
  assert (0 < zlen code) as Hz. { unfold zlen. destruct code; [easy|]. cbn [List.length]. lia. }
  destruct (Z.eqb_spec (zlen code) 0); [lia|]. destruct (Z.ltb_spec (zlen code) 0); [lia|]. rewrite Hd.
  repeat apply conj.
  - intros ->. now rewrite Z.eqb_refl.
  - intros -> ->. reflexivity.
  - intros H1 H2 ->. destruct (Z.eqb_spec r DECRES_INPUTERR); [easy|]. destruct (Z.eqb_spec r DECRES_MEMORYERR); [easy|]. reflexivity.
  - intros H1 H2. destruct (Z.eqb_spec r DECRES_INPUTERR); [easy|]. destruct (Z.eqb_spec (zlen result) 0) as [Hr|Hr].
    { destruct result; [easy|]. unfold zlen in Hr. cbn [List.length] in Hr. lia. }
    rewrite andb_false_r. destruct (decode_loop _ _ _ _ _) as [l e]. eauto.
Qed.
Lemma fallback_errors internal_decode fuel code address e : Decode internal_decode fuel address code = ([], e) ->
  (e = DDone -> disassembleOne_fallback internal_decode fuel code address = Err (EPtraceError None)) /\
  (e = DValueError -> disassembleOne_fallback internal_decode fuel code address = Err EValueError).
Proof. intros H. unfold disassembleOne_fallback. rewrite H. split; intros ->; reflexivity. Qed.
