From Coq Require Import ZArith List Ascii String Bool Lia.
From Verif Require Import PyBase PyFacts Platform IntModel IntSpec IntProofs CallModel CallSpec CallProofs MemModel MemSpec MemProofs MemProofs2 MemProofs3 MemExamples.
Import ListNotations.
Open Scope Z_scope.

Lemma ptrace_read_ok E a n s :
  good_pid E -> 0 < n -> in_space E a n -> words_mapped (e_p E) (s_mem s) a n ->
  exists d, readBytes_ptrace E a n s = (s, Ok d) /\ stored (s_mem s) a d /\ zlen d = n.
Proof.
  intros Hp Hn Hs Hm. destruct (readBytes_ptrace_spec E Hp a n s (or_introl Hn) Hs) as [[_ (d & A & B & C)]|[H _]]; eauto.
  contradiction.
Qed.
Lemma ptrace_read_fails E a n s :
  good_pid E -> 0 < n -> in_space E a n -> ~ words_mapped (e_p E) (s_mem s) a n ->
  exists e, readBytes_ptrace E a n s = (s, Err (EPtraceError (Some e))).
Proof.
  intros Hp Hn Hs Hm. destruct (readBytes_ptrace_spec E Hp a n s (or_introl Hn) Hs) as [[H _]|[_ H]]; auto.
  contradiction.
Qed.
Lemma read_any_path E a n s :
  p_os (e_p E) = Linux -> good_pid E -> faithful E -> never_fails E -> open_ok E ->
  0 < n -> in_space E a n -> words_mapped (e_p E) (s_mem s) a n -> file_usable s (a + n) ->
  exists s' d, readBytes E a n s = (s', Ok d) /\ stored (s_mem s) a d /\ zlen d = n.
Proof.
  intros Ho Hp Hf Hnf Hop Hn Hs Hm Hu.
  destruct (readBytes_good E Ho Hp Hf a n s Hnf Hop Hn Hs Hm Hu) as (s' & d & A & _ & B & C & _). eauto.
Qed.
Lemma read_only_true E a n s s' d :
  p_os (e_p E) = Linux -> good_pid E -> faithful E -> 0 < n -> in_space E a n ->
  readBytes E a n s = (s', Ok d) -> stored (s_mem s) a d /\ zlen d <= n.
Proof. intros Ho Hp Hf. apply (readBytes_sound E Ho Hp Hf). Qed.

Lemma short_read : exists E a n s d,
  p_os (e_p E) = Linux /\ good_pid E /\ faithful E /\ never_fails E /\ in_space E a n /\
  snd (readBytes E a n s) = Ok d /\ zlen d < n.
Proof.
  exists (prefix_env Ctypes linux_x86_64), 8190, 6, (fresh page_mem), (map z2b [8190; 8191]).
  split; [reflexivity|]. split; [split; easy|]. split; [apply prefix_env_faithful|].
  split; [apply prefix_env_never_fails|]. split; [repeat split; discriminate|]. split; [vm_compute; reflexivity|reflexivity].
Qed.
Lemma string_page_mapped p base nul_at a n : (4096 | base) -> base <= a -> a + n <= base + 4096 ->
  words_mapped p (string_mem base nul_at) a n.
Proof.
  intros [r Hr] Ha Hn x w Hx [[q Hq] Hw] y Hy. cbn.
  assert (base <= y < base + 4096) by (unfold word_size in *; destruct (p_64bits p); lia).
  replace (base <=? y) with true by lia. replace (y <? base + 4096) with true by lia. discriminate.
Qed.
Lemma high_address : exists E a n s d,
  p_os (e_p E) = Linux /\ good_pid E /\ faithful E /\ in_space E a n /\ words_mapped (e_p E) (s_mem s) a n /\
  snd (readBytes E a n s) = Err EOverflowError /\ snd (readBytes_ptrace E a n s) = Ok d.
Proof.
  exists (prefix_env Ctypes linux_x86_64), 0xffffffffff600000, 3, (fresh (string_mem 0xffffffffff600000 0)), (T "aaa").
  split; [reflexivity|]. split; [split; easy|]. split; [apply prefix_env_faithful|].
  split; [repeat split; discriminate|]. split; [|split; vm_compute; reflexivity].
  apply string_page_mapped; [exists (0xffffffffff600000 / 4096); reflexivity|lia|lia].
Qed.
Lemma bsd_padding : exists E a n s d,
  p_os (e_p E) = FreeBSD /\ snd (readBytes E a n s) = Ok d /\ zlen d = n /\ ~ stored (s_mem s) a d.
Proof.
  exists (prefix_env Ctypes freebsd_x86_64), 8191, 2, (fresh page_mem), (map z2b [8191; 0]).
  split; [reflexivity|]. split; [vm_compute; reflexivity|]. split; [reflexivity|].
  intros H. specialize (H 1%nat _ eq_refl). discriminate.
Qed.

Lemma write_prefix E a d s s' r :
  p_os (e_p E) = Linux -> good_pid E -> faithful E -> in_space E a (zlen d) ->
  writeBytes E a d s = (s', r) ->
  exists m, (m <= List.length d)%nat /\ written (s_mem s) (s_mem s') a (firstn m d) /\
            (r = Ok tt -> m = List.length d).
Proof.
  intros Ho Hp Hf Hs H. destruct (writeBytes_spec E Ho Hp Hf a d s s' r Hs H) as (m & A & B & C & _). eauto.
Qed.
Lemma write_exact E a d s s' :
  p_os (e_p E) = Linux -> good_pid E -> faithful E -> in_space E a (zlen d) ->
  writeBytes E a d s = (s', Ok tt) -> written (s_mem s) (s_mem s') a d.
Proof.
  intros Ho Hp Hf Hs H. destruct (write_prefix E a d s s' _ Ho Hp Hf Hs H) as (m & A & B & C).
  rewrite (C eq_refl), firstn_all in B. exact B.
Qed.
Lemma write_succeeds E a d s s' r :
  p_os (e_p E) = Linux -> good_pid E -> faithful E -> never_fails E -> open_ok E -> e_be E = Ctypes ->
  in_space E a (zlen d) -> 0 < zlen d ->
  words_mapped (e_p E) (s_mem s) a (zlen d) -> words_pokable (e_p E) (s_mem s) a (zlen d) ->
  file_usable s (a + zlen d + word_size (e_p E)) ->
  writeBytes E a d s = (s', r) -> r = Ok tt.
Proof.
  intros Ho Hp Hf Hnf Hop Hbe Hs Hpos Hm Hk Hu H.
  destruct (writeBytes_spec E Ho Hp Hf a d s s' r Hs H) as (m & _ & _ & _ & Hok). apply Hok.
  split; [exact Hbe|]. split; [split; assumption|]. split; [now left|].
  exists (a + zlen d + word_size (e_p E)). split; [repeat split; assumption|]. intros w _ Hw. lia.
Qed.
Lemma write_read E a d s s' :
  p_os (e_p E) = Linux -> good_pid E -> faithful E -> never_fails E -> open_ok E ->
  in_space E a (zlen d) -> 0 < zlen d -> words_mapped (e_p E) (s_mem s) a (zlen d) ->
  writeBytes E a d s = (s', Ok tt) -> file_usable s' (a + zlen d) ->
  exists s'', readBytes E a (zlen d) s' = (s'', Ok d).
Proof. intros Ho Hp Hf Hnf Hop. apply (write_then_read E Ho Hp Hf Hnf Hop). Qed.
Lemma write_bsd E a d s s' r :
  p_os (e_p E) <> Linux -> 0 <= a < 2 ^ (8 * word_size (e_p E)) ->
  (forall x, a <= x < a + zlen d -> k_byte (s_mem s) x <> None /\ k_pokable (s_mem s) x = true) ->
  writeBytes E a d s = (s', r) -> r = Ok tt /\ written (s_mem s) (s_mem s') a d.
Proof.
  intros Ho Ha Hx H. destruct (writeBytes_bsd E a d s s' r Ho Ha H) as (m & A & B & C).
  destruct (C Hx) as [-> ->]. rewrite firstn_all in B. auto.
Qed.
Lemma write_prefix_bsd E a d s s' r :
  p_os (e_p E) <> Linux -> 0 <= a < 2 ^ (8 * word_size (e_p E)) ->
  writeBytes E a d s = (s', r) ->
  exists m, (m <= List.length d)%nat /\ written (s_mem s) (s_mem s') a (firstn m d).
Proof.
  intros Ho Ha H. destruct (writeBytes_bsd E a d s s' r Ho Ha H) as (m & A & B & _). eauto.
Qed.
Lemma cptrace_write : exists E a d s,
  e_be E = Cptrace /\ p_os (e_p E) = Linux /\ good_pid E /\ faithful E /\ never_fails E /\ in_space E a (zlen d) /\
  words_mapped (e_p E) (s_mem s) a (zlen d) /\ words_pokable (e_p E) (s_mem s) a (zlen d) /\
  snd (writeBytes E a d s) = Err EOverflowError.
Proof.
  exists (prefix_env Cptrace linux_x86_64), 4096, (map z2b [0; 0; 0; 0; 0; 0; 0; 128]), (fresh page_mem).
  split; [reflexivity|]. split; [reflexivity|]. split; [split; easy|]. split; [apply prefix_env_faithful|].
  split; [apply prefix_env_never_fails|]. split; [repeat split; discriminate|].
  split; [apply page_mapped; vm_compute; discriminate|]. split; [apply page_pokable|]. vm_compute. reflexivity.
Qed.
Lemma bsd_short_write : exists E a d s,
  p_os (e_p E) = FreeBSD /\ snd (writeBytes E a d s) = Ok tt /\
  ~ stored (s_mem (fst (writeBytes E a d s))) a d.
Proof.
  exists (prefix_env Ctypes freebsd_x86_64), 8191, (T "xy"), (fresh page_mem).
  split; [reflexivity|]. split; [vm_compute; reflexivity|].
  intros H. specialize (H 1%nat _ eq_refl). vm_compute in H. discriminate.
Qed.

Lemma cstring_ok E a max c q d s :
  p_os (e_p E) = Linux -> good_pid E -> faithful E -> never_fails E -> open_ok E ->
  0 < c -> 0 <= max -> (0 < q)%nat -> zlen d = c * Z.of_nat q ->
  stored (s_mem s) a d -> words_mapped (e_p E) (s_mem s) a (zlen d) ->
  in_space E a (zlen d) -> file_usable s (a + zlen d) ->
  (In (z2b 0) d \/ max <= zlen d) ->
  exists s' truncated,
    readCString E a max c s = (s', Ok (firstn (Z.to_nat max) (upto_nul d), truncated)) /\
    (truncated = false <-> exists i, first_nul d i /\ c * (Z.of_nat i / c + 1) < max).
Proof.
  intros Ho Hp Hf Hnf Hop Hc Hmax Hq Hl Hst Hm Hs Hu Ht.
  destruct (readCString_linux E Ho Hp Hf Hnf Hop a max c q d s) as [s' H]; auto.
  exists s', (flag c d max). split; [exact H|]. now apply flag_false.
Qed.
Lemma cstring_not_truncated E a max c q d s s' t :
  p_os (e_p E) = Linux -> good_pid E -> faithful E -> never_fails E -> open_ok E ->
  0 < c -> 0 <= max -> (0 < q)%nat -> zlen d = c * Z.of_nat q ->
  stored (s_mem s) a d -> words_mapped (e_p E) (s_mem s) a (zlen d) ->
  in_space E a (zlen d) -> file_usable s (a + zlen d) ->
  (In (z2b 0) d \/ max <= zlen d) ->
  readCString E a max c s = (s', Ok (t, false)) -> In (z2b 0) d /\ t = upto_nul d.
Proof.
  intros Ho Hp Hf Hnf Hop Hc Hmax Hq Hl Hst Hm Hs Hu Ht H.
  destruct (readCString_linux E Ho Hp Hf Hnf Hop a max c q d s) as [s1 H1]; auto.
  rewrite H in H1. injection H1 as _ -> Hfl. symmetry in Hfl.
  unfold flag in Hfl. destruct (find_nul d) as [i|] eqn:Ef; [|discriminate]. zb.
  pose proof (find_nul_upto _ _ Ef) as [Hup [Hnth _]]. split; [eapply nth_error_In; exact Hnth|].
  apply firstn_all2. rewrite <- Hup, firstn_length.
  pose proof (Z.div_mod (Z.of_nat i) c). pose proof (Z.mod_pos_bound (Z.of_nat i) c Hc). lia.
Qed.
Lemma truncated_flag : exists E a max s,
  p_os (e_p E) = Linux /\ good_pid E /\ faithful E /\ never_fails E /\
  k_bytes (s_mem s) a 4 = Some (T "aaa" ++ [z2b 0]) /\ max = 256 /\
  snd (readCString E a max 256 s) = Ok (T "aaa", true).
Proof.
  exists (prefix_env Ctypes linux_x86_64), 4096, 256, (fresh (string_mem 4096 4099)).
  split; [reflexivity|]. split; [split; easy|]. split; [apply prefix_env_faithful|].
  split; [apply prefix_env_never_fails|]. repeat split; vm_compute; reflexivity.
Qed.
Lemma end_of_mapping : exists E a max s,
  p_os (e_p E) = Linux /\ good_pid E /\ faithful E /\
  k_bytes (s_mem s) a 4 = Some (T "aaa" ++ [z2b 0]) /\
  snd (readCString E a max 256 s) = Err (EPtraceError (Some EIO)).
Proof.
  exists (denied_env Ctypes linux_x86_64), 8188, 1000, (fresh (string_mem 4096 8191)).
  split; [reflexivity|]. split; [split; easy|]. split; [apply denied_env_faithful|].
  split; vm_compute; reflexivity.
Qed.
Lemma struct_ok E a n s :
  p_os (e_p E) = Linux -> good_pid E -> faithful E -> never_fails E -> open_ok E ->
  0 < n -> in_space E a n -> words_mapped (e_p E) (s_mem s) a n -> file_usable s (a + n) ->
  exists s' d, readStruct E a n s = (s', Ok d) /\ stored (s_mem s) a d /\ zlen d = n.
Proof. intros Ho Hp Hf Hnf Hop. apply (readStruct_linux E Ho Hp Hf Hnf Hop). Qed.
Lemma array_ok E a size count s :
  p_os (e_p E) = Linux -> good_pid E -> faithful E -> never_fails E -> open_ok E ->
  0 < size -> 0 < count -> in_space E a (size * count) ->
  words_mapped (e_p E) (s_mem s) a (size * count) -> file_usable s (a + size * count) ->
  exists s' els, readArray E a size count s = (s', Ok els) /\ zlen els = count /\
    forall i e, nth_error els i = Some e -> stored (s_mem s) (a + Z.of_nat i * size) e /\ zlen e = size.
Proof. intros Ho Hp Hf Hnf Hop. apply (readArray_linux E Ho Hp Hf Hnf Hop). Qed.
Lemma short_struct : exists E a n s,
  p_os (e_p E) = Linux /\ good_pid E /\ faithful E /\ never_fails E /\ in_space E a n /\
  snd (readStruct E a n s) = Err EUndefined.
Proof.
  exists (prefix_env Ctypes linux_x86_64), 8188, 16, (fresh page_mem).
  split; [reflexivity|]. split; [split; easy|]. split; [apply prefix_env_faithful|].
  split; [apply prefix_env_never_fails|]. split; [repeat split; discriminate|]. vm_compute; reflexivity.
Qed.
Lemma short_array : exists E a size count s,
  p_os (e_p E) = Linux /\ good_pid E /\ faithful E /\ never_fails E /\ in_space E a (size * count) /\
  snd (readArray E a size count s) = Err EUndefined.
Proof.
  exists (prefix_env Ctypes linux_x86_64), 8188, 4, 4, (fresh page_mem).
  split; [reflexivity|]. split; [split; easy|]. split; [apply prefix_env_faithful|].
  split; [apply prefix_env_never_fails|]. split; [repeat split; discriminate|]. vm_compute; reflexivity.
Qed.
Lemma prefix_facts k n : forall a, let d := k_prefix k a n in stored k a d /\ (List.length d <= n)%nat /\ ((List.length d < n)%nat -> k_byte k (a + zlen d) = None).
Proof.
  induction n as [|n IH]; intros a; cbn zeta in *; cbn [k_prefix].
  - split; [intros [|i] b H; discriminate|]. split; cbn; lia.
  - destruct (k_byte k a) as [b|] eqn:E.
    + destruct (IH (a + 1)) as (H1 & H2 & H3). split; [|split].
      * intros [|i] b' H; cbn in H; [injection H as <-; now rewrite Z.add_0_r|]. apply H1 in H. rewrite <- H. f_equal. lia.
      * cbn. lia.
      * cbn [List.length]. intros H. rewrite zlen_cons. replace (a + (1 + zlen (k_prefix k (a + 1) n))) with (a + 1 + zlen (k_prefix k (a + 1) n)) by lia. apply H3. lia.
    + split; [intros [|i] b H; discriminate|]. split; [cbn; lia|]. intros _. unfold zlen. cbn. now rewrite Z.add_0_r.
Qed.
Lemma read_bsd_any E a n s : p_os (e_p E) <> Linux -> 0 <= n -> 0 <= a < 2 ^ (8 * word_size (e_p E)) ->
  (0 < n /\ k_byte (s_mem s) a = None /\ readBytes E a n s = (s, Err (EPtraceError (Some 5)))) \/
  ((n = 0 \/ k_byte (s_mem s) a <> None) /\ exists d zeros, readBytes E a n s = (s, Ok (d ++ repeat (z2b 0) zeros)) /\ stored (s_mem s) a d /\
     zlen d + Z.of_nat zeros = n /\ (zeros <> O -> k_byte (s_mem s) (a + zlen d) = None)).
Proof.
  intros Hos Hn Ha. destruct (prefix_facts (s_mem s) (Z.to_nat n) a) as (H1 & H2 & H3). unfold readBytes.
  assert (has_ptrace_io (e_p E) = true) as -> by (unfold has_ptrace_io, running_bsd, running_linux; now destruct (p_os (e_p E))).
  unfold readBytes_io. replace (n <? 0) with false by blia. rewrite truncate_word_small by exact Ha.
  set (d := k_prefix (s_mem s) a (Z.to_nat n)) in *. destruct ((List.length d =? 0)%nat && negb (n =? 0)) eqn:Eb.
  - left. apply andb_prop in Eb as [E1 E2]. apply Nat.eqb_eq in E1. apply negb_true_iff in E2. zb. split; [lia|]. split; [|reflexivity].
    assert (zlen d = 0) as Hz by (unfold zlen; lia). rewrite Hz, Z.add_0_r in H3. apply H3. lia.
  - right. split.
    + destruct (Z.eq_dec n 0) as [->|Hn0]; [now left|right]. intros E0. unfold d in Eb. destruct (Z.to_nat n) as [|m] eqn:Em; [lia|]. cbn [k_prefix] in Eb. rewrite E0 in Eb.
      replace (n =? 0) with false in Eb by blia. discriminate.
    + exists d, (Z.to_nat n - List.length d)%nat. split; [reflexivity|]. split; [exact H1|]. unfold zlen in *. split; [lia|]. intros Hne. apply H3. lia.
Qed.
Lemma io_write_count bytes : forall k a k' n, io_write k a bytes = (k', n) -> (n < List.length bytes)%nat ->
  k_byte k (a + Z.of_nat n) = None \/ k_pokable k (a + Z.of_nat n) = false.
Proof.
  induction bytes as [|b bs IH]; intros k a k' n H Hn; cbn [io_write List.length] in *; [lia|].
  destruct (k_byte k a) as [b0|] eqn:Eb; [|injection H as <- <-; left; now rewrite Z.add_0_r].
  destruct (k_pokable k a) eqn:Ep; [|injection H as <- <-; right; now rewrite Z.add_0_r].
  set (k1 := KMem (fun x => if x =? a then Some b else k_byte k x) (k_pokable k)) in *.
  destruct (io_write k1 (a + 1) bs) as [k2 m] eqn:Ei. injection H as <- <-. destruct (IH _ _ _ _ Ei) as [H|H]; [lia| |].
  - left. cbn [k1 k_byte] in H. destruct (a + 1 + Z.of_nat m =? a) eqn:E; [discriminate|]. rewrite <- H. f_equal. lia.
  - right. cbn [k1 k_pokable] in H. rewrite <- H. f_equal. lia.
Qed.
Lemma write_bsd_any E a d s : p_os (e_p E) <> Linux -> 0 <= a < 2 ^ (8 * word_size (e_p E)) ->
  exists m s' r, writeBytes E a d s = (s', r) /\ (m <= List.length d)%nat /\ written (s_mem s) (s_mem s') a (firstn m d) /\
    ((m < List.length d)%nat -> k_byte (s_mem s) (a + Z.of_nat m) = None \/ k_pokable (s_mem s) (a + Z.of_nat m) = false) /\
    r = (if (0 <? Z.of_nat m) || (zlen d =? 0) then Ok tt else Err (EPtraceError (Some 5))).
Proof.
  intros Hos Ha. unfold writeBytes.
  assert (has_ptrace_io (e_p E) = true) as -> by (unfold has_ptrace_io, running_bsd, running_linux; now destruct (p_os (e_p E))).
  unfold writeBytes_io. rewrite truncate_word_small by exact Ha. destruct (io_write (s_mem s) a d) as [k n] eqn:Ei.
  destruct (io_write_spec _ _ _ _ _ Ei) as (H1 & H2 & _). pose proof (io_write_count _ _ _ _ _ Ei) as H3. exists n.
  destruct (n =? 0)%nat eqn:E0; cbn [andb].
  - apply Nat.eqb_eq in E0. subst n. cbn [firstn] in *. destruct (zlen d =? 0) eqn:Ed; cbn [negb orb Z.ltb Z.compare Z.of_nat].
    + eexists. eexists. split; [reflexivity|]. repeat split; auto; try (now apply H2). 
    + eexists. eexists. split; [reflexivity|]. split; [lia|]. split; [apply written_nil|]. split; [exact H3|reflexivity].
  - apply Nat.eqb_neq in E0. eexists. eexists. split; [reflexivity|]. split; [exact H1|]. split; [exact H2|]. split; [exact H3|]. replace (0 <? Z.of_nat n) with true by blia. reflexivity.
Qed.
