From Coq Require Import ZArith List Ascii String Bool Lia.
From Verif Require Import PyBase PyFacts Platform IntModel IntSpec IntProofs CallModel CallSpec CallProofs MemModel MemSpec.
Import ListNotations.
Open Scope Z_scope.

(** ** Slices *)
Lemma zlen_nat {A} (l : list A) : zlen l = Z.of_nat (List.length l).
Proof. reflexivity. Qed.
Lemma zlen_firstn {A} n (l : list A) : zlen (firstn n l) = Z.min (Z.of_nat n) (zlen l).
Proof. rewrite !zlen_nat, firstn_length. lia. Qed.
Lemma zlen_skipn {A} n (l : list A) : zlen (skipn n l) = Z.max 0 (zlen l - Z.of_nat n).
Proof. rewrite !zlen_nat, skipn_length. lia. Qed.

Lemma pyslice_to {A} n (l : list A) : 0 <= n -> pyslice None (Some n) l = firstn (Z.to_nat n) l.
Proof.
  intros Hn. unfold pyslice, py_clamp. replace (n <? 0) with false by blia. cbn [skipn Z.to_nat].
  rewrite Z.sub_0_r. destruct (Z.le_gt_cases n (zlen l)).
  - now rewrite Z.min_l.
  - rewrite Z.min_r by lia. rewrite !firstn_all2; auto; rewrite zlen_nat in *; lia.
Qed.
Lemma pyslice_from {A} n (l : list A) : 0 <= n -> pyslice (Some n) None l = skipn (Z.to_nat n) l.
Proof.
  intros Hn. unfold pyslice, py_clamp. replace (n <? 0) with false by blia.
  rewrite firstn_all2 by (rewrite skipn_length, zlen_nat; lia).
  destruct (Z.le_gt_cases n (zlen l)).
  - now rewrite Z.min_l.
  - rewrite Z.min_r by lia. rewrite !skipn_all2; auto; rewrite zlen_nat in *; lia.
Qed.
Lemma pyslice_mid {A} i j (l : list A) : 0 <= i -> i <= j ->
  pyslice (Some i) (Some j) l = firstn (Z.to_nat (j - i)) (skipn (Z.to_nat i) l).
Proof.
  intros Hi Hj. unfold pyslice, py_clamp.
  replace (i <? 0) with false by blia. replace (j <? 0) with false by blia.
  destruct (Z.le_gt_cases i (zlen l)).
  - rewrite (Z.min_l i) by lia. destruct (Z.le_gt_cases j (zlen l)).
    + now rewrite Z.min_l by lia.
    + rewrite Z.min_r by lia. rewrite !firstn_all2; auto; rewrite skipn_length; rewrite zlen_nat in *; lia.
  - rewrite (Z.min_r i), (Z.min_r j) by lia.
    rewrite !skipn_all2 by (rewrite zlen_nat in *; lia). now rewrite !firstn_nil.
Qed.

(** ** Facts on memory contents *)
Lemma k_bytes_spec k n : forall a bs,
  k_bytes k a n = Some bs <-> stored k a bs /\ List.length bs = n.
Proof.
  induction n as [|n IH]; intros a bs; cbn [k_bytes].
  - split.
    + intros [= <-]. split; [|reflexivity]. intros [|i] b H; discriminate.
    + intros [_ H]. destruct bs; [reflexivity|discriminate].
  - destruct (k_byte k a) as [b|] eqn:Eb.
    + destruct (k_bytes k (a + 1) n) as [bs'|] eqn:E.
      * apply IH in E as [Hs Hl]. split.
        -- intros [= <-]. split; [|cbn; congruence].
           intros [|i] c H; cbn in H.
           ++ injection H as <-. now rewrite Z.add_0_r.
           ++ apply Hs in H. rewrite <- H. f_equal. lia.
        -- intros [Hs' Hl']. destruct bs as [|c bs]; [discriminate|].
           f_equal. f_equal.
           ++ specialize (Hs' 0%nat c eq_refl). rewrite Z.add_0_r in Hs'. congruence.
           ++ assert (k_bytes k (a + 1) n = Some bs) as E'.
              { apply IH. split; [|cbn in Hl'; congruence].
                intros i d H. rewrite <- (Hs' (S i) d H). f_equal. lia. }
              assert (k_bytes k (a + 1) n = Some bs') as E'' by (apply IH; auto).
              congruence.
      * split; [discriminate|]. intros [Hs' Hl']. destruct bs as [|c bs]; [discriminate|].
        assert (k_bytes k (a + 1) n = Some bs) as E'.
        { apply IH. split; [|cbn in Hl'; congruence].
          intros i d H. rewrite <- (Hs' (S i) d H). f_equal. lia. }
        congruence.
    + split; [discriminate|]. intros [Hs' Hl']. destruct bs as [|c bs]; [discriminate|].
      specialize (Hs' 0%nat c eq_refl). rewrite Z.add_0_r in Hs'. congruence.
Qed.
Lemma k_bytes_mapped k n : forall a, (exists bs, k_bytes k a n = Some bs) <-> mapped k a (Z.of_nat n).
Proof.
  induction n as [|n IH]; intros a.
  - split; [intros _ x Hx; lia|intros _; now exists []].
  - cbn [k_bytes]. split.
    + intros [bs H]. destruct (k_byte k a) eqn:Eb; [|discriminate].
      destruct (k_bytes k (a + 1) n) eqn:E; [|discriminate].
      intros x Hx. destruct (Z.eq_dec x a) as [->|Hn]; [congruence|].
      apply (proj1 (IH (a + 1))); [eauto|lia].
    + intros H. assert (k_byte k a <> None) as Ha by (apply H; lia).
      destruct (k_byte k a) as [b|]; [|congruence].
      assert (mapped k (a + 1) (Z.of_nat n)) as H1 by (intros x Hx; apply H; lia).
      apply IH in H1 as [bs ->]. eauto.
Qed.
Lemma stored_app k a d1 d2 : stored k a (d1 ++ d2) <-> stored k a d1 /\ stored k (a + zlen d1) d2.
Proof.
  split.
  - intros H. split.
    + intros i b Hi. apply H. rewrite nth_error_app1; auto. apply nth_error_Some. congruence.
    + intros i b Hi. specialize (H (List.length d1 + i)%nat b).
      rewrite nth_error_app2, Nat.add_comm, Nat.add_sub in H by lia.
      rewrite <- H by assumption. f_equal. rewrite zlen_nat. lia.
  - intros [H1 H2] i b Hi. destruct (Nat.lt_ge_cases i (List.length d1)).
    + rewrite nth_error_app1 in Hi by assumption. auto.
    + rewrite nth_error_app2 in Hi by assumption. apply H2 in Hi. rewrite <- Hi. f_equal. rewrite zlen_nat. lia.
Qed.
Lemma stored_mapped k a d : stored k a d -> mapped k a (zlen d).
Proof. intros H. rewrite zlen_nat. apply k_bytes_mapped. exists d. now apply k_bytes_spec. Qed.
Lemma stored_unique k a d1 d2 : stored k a d1 -> stored k a d2 -> zlen d1 = zlen d2 -> d1 = d2.
Proof.
  intros H1 H2 Hl. rewrite !zlen_nat in Hl.
  assert (k_bytes k a (List.length d1) = Some d1) by now apply k_bytes_spec.
  assert (k_bytes k a (List.length d1) = Some d2) by (apply k_bytes_spec; split; [auto|lia]).
  congruence.
Qed.
Lemma mapped_stored k a n : 0 <= n -> mapped k a n -> exists d, stored k a d /\ zlen d = n.
Proof.
  intros Hn H. rewrite <- (Z2Nat.id n Hn) in H. apply k_bytes_mapped in H as [d Hd].
  apply k_bytes_spec in Hd as [Hs Hl]. exists d. split; auto. rewrite zlen_nat. lia.
Qed.
Lemma stored_firstn k a d n : stored k a d -> stored k a (firstn n d).
Proof. intros H. rewrite <- (firstn_skipn n d) in H. now apply stored_app in H. Qed.
Lemma stored_skipn k a d n : (n <= List.length d)%nat -> stored k a d -> stored k (a + Z.of_nat n) (skipn n d).
Proof.
  intros Hn H. rewrite <- (firstn_skipn n d) in H. apply stored_app in H as [_ H].
  rewrite zlen_firstn, zlen_nat in H. now rewrite Z.min_l in H by lia.
Qed.

Lemma written_nil k a : written k k a [].
Proof.
  split; [|reflexivity]. intros x. destruct (a <=? x); [|reflexivity].
  destruct (Z.to_nat (x - a)); reflexivity.
Qed.
Lemma written_app k k1 k2 a d1 d2 :
  written k k1 a d1 -> written k1 k2 (a + zlen d1) d2 -> written k k2 a (d1 ++ d2).
Proof.
  intros [H1 P1] [H2 P2]. split; [|intros x; now rewrite P2, P1].
  intros x. rewrite H2, H1. rewrite zlen_nat in *.
  pose proof (Nat2Z.is_nonneg (List.length d1)) as Hnn.
  destruct (a + Z.of_nat (List.length d1) <=? x) eqn:E1.
  - replace (a <=? x) with true by blia.
    assert (nth_error d1 (Z.to_nat (x - a)) = None) as E by (apply nth_error_None; lia).
    rewrite E, nth_error_app2 by (apply nth_error_None in E; lia).
    replace (Z.to_nat (x - a) - List.length d1)%nat with (Z.to_nat (x - (a + Z.of_nat (List.length d1)))) by lia.
    reflexivity.
  - destruct (a <=? x) eqn:E2; [|reflexivity].
    rewrite nth_error_app1 by lia. reflexivity.
Qed.
Lemma written_stored k k' a d : written k k' a d -> stored k' a d.
Proof.
  intros [H _] i b Hi. rewrite H. replace (a <=? a + Z.of_nat i) with true by blia.
  replace (Z.to_nat (a + Z.of_nat i - a)) with i by lia. now rewrite Hi.
Qed.
(** bytes that are written with their old value do not count *)
Lemma written_pre k k' a pre d :
  stored k a pre -> written k k' a (pre ++ d) -> written k k' (a + zlen pre) d.
Proof.
  intros Hs [H P]. split; [|exact P]. intros x. rewrite H. rewrite zlen_nat.
  destruct (a <=? x) eqn:E1.
  - destruct (a + Z.of_nat (List.length pre) <=? x) eqn:E2.
    + rewrite nth_error_app2 by lia.
      now replace (Z.to_nat (x - a) - List.length pre)%nat with (Z.to_nat (x - (a + Z.of_nat (List.length pre)))) by lia.
    + rewrite nth_error_app1 by lia.
      destruct (nth_error pre (Z.to_nat (x - a))) eqn:E; [|reflexivity].
      apply Hs in E. rewrite <- E. f_equal. lia.
  - replace (a + Z.of_nat (List.length pre) <=? x) with false by blia. reflexivity.
Qed.
Lemma written_suf k k' a d suf :
  stored k (a + zlen d) suf -> written k k' a (d ++ suf) -> written k k' a d.
Proof.
  intros Hs [H P]. split; [|exact P]. intros x. rewrite H. rewrite zlen_nat in Hs.
  destruct (a <=? x) eqn:E1; [|reflexivity].
  destruct (Nat.lt_ge_cases (Z.to_nat (x - a)) (List.length d)) as [Hl|Hl].
  - now rewrite nth_error_app1.
  - rewrite nth_error_app2 by assumption.
    assert (nth_error d (Z.to_nat (x - a)) = None) as -> by (apply nth_error_None; lia).
    destruct (nth_error suf (Z.to_nat (x - a) - List.length d)) eqn:E; [|reflexivity].
    apply Hs in E. rewrite <- E. f_equal. lia.
Qed.
Lemma written_mapped k k' a d x : written k k' a d -> k_byte k x <> None -> k_byte k' x <> None.
Proof.
  intros [H _] Hx. rewrite H. destruct (if a <=? x then _ else _); congruence.
Qed.
Lemma written_outside k k' a d x : written k k' a d -> x < a \/ a + zlen d <= x -> k_byte k' x = k_byte k x.
Proof.
  intros [H _] Hx. rewrite H. rewrite zlen_nat in Hx. destruct (a <=? x) eqn:E; [|reflexivity].
  assert (nth_error d (Z.to_nat (x - a)) = None) as -> by (apply nth_error_None; lia). reflexivity.
Qed.

(** ** Words *)
Lemma word_size_pos p : 0 < word_size p.
Proof. unfold word_size; destruct (p_64bits p); lia. Qed.
Lemma word_bytes_Z p : Z.of_nat (word_bytes p) = word_size p.
Proof. unfold word_bytes. pose proof (word_size_pos p). lia. Qed.
Lemma stored_word_host p bs : stored_word p bs = host_value (p_bigendian p) bs.
Proof. reflexivity. Qed.
Lemma stored_word_range p bs : zlen bs = word_size p -> 0 <= stored_word p bs < 2 ^ wbits p.
Proof.
  intros H. rewrite stored_word_host. pose proof (host_value_range (p_bigendian p) bs).
  rewrite H in H0. rewrite <- word_bytes_pos, word_bytes_Z. exact H0.
Qed.
Lemma bytes2word_stored p bs : zlen bs = word_size p -> bytes2word p bs = Ok (stored_word p bs).
Proof.
  intros H. unfold bytes2word. rewrite <- (zlen_word_bytes p bs H). apply unpack_host.
Qed.
Lemma bytes2word_bad p bs : zlen bs <> word_size p -> bytes2word p bs = Err EStructError.
Proof.
  intros H. unfold bytes2word, unpack_uint.
  destruct (List.length bs =? word_bytes p)%nat eqn:E; [|reflexivity].
  apply Nat.eqb_eq in E. exfalso. apply H. now rewrite zlen_nat, E, word_bytes_Z.
Qed.
Lemma word2bytes_stored p bs : zlen bs = word_size p -> word2bytes p (stored_word p bs) = Ok bs.
Proof.
  intros H. unfold word2bytes. pose proof (zlen_word_bytes p bs H) as Hl. rewrite <- Hl.
  apply unpack_pack. apply unpack_host.
Qed.
Lemma le_value_nth s : forall i b, nth_error s i = Some b -> z2b (le_value s / 256 ^ Z.of_nat i) = b.
Proof.
  induction s as [|c s IH]; intros [|i] b H; try discriminate; cbn [nth_error] in H; cbn [le_value].
  - injection H as ->. rewrite Z.div_1_r. unfold z2b.
    replace ((b2z b + 256 * le_value s) mod 256) with (b2z b mod 256).
    + apply z2b_b2z.
    + rewrite (Z.mul_comm 256), Z.mod_add by lia. reflexivity.
  - rewrite Nat2Z.inj_succ, Z.pow_succ_r by lia. rewrite <- Z.div_div by (try apply Z.pow_pos_nonneg; lia).
    rewrite (Z.mul_comm 256), Z.div_add by lia. rewrite (Z.div_small (b2z c)) by apply b2z_range. rewrite Z.add_0_l. now apply IH.
Qed.
Lemma word_byte_stored p bs i b : zlen bs = word_size p -> nth_error bs i = Some b ->
  word_byte p (stored_word p bs) (Z.of_nat i) = b.
Proof.
  intros Hl Hi. unfold word_byte. rewrite stored_word_host. unfold host_value.
  assert ((i < List.length bs)%nat) as Hlt by (apply nth_error_Some; congruence).
  destruct (p_bigendian p).
  - rewrite <- (rev_involutive bs) at 1. rewrite be_rev.
    replace (word_size p - 1 - Z.of_nat i) with (Z.of_nat (List.length bs - S i)) by (rewrite zlen_nat in Hl; lia).
    apply le_value_nth.
    rewrite <- (rev_involutive bs) in Hi. 
    rewrite (nth_error_nth' _ "000"%char) by (rewrite rev_length; lia).
    rewrite rev_nth by lia. replace (List.length bs - S (List.length bs - S i))%nat with i by lia.
    rewrite rev_involutive in Hi. f_equal. now apply nth_error_nth.
  - rewrite be_rev. now apply le_value_nth.
Qed.

Lemma multiple_below V w x : 0 < V -> (V | w) -> w <= x < w + V -> w = V * (x / V).
Proof.
  intros HV [q ->] Hx. rewrite (Z.mul_comm q). f_equal.
  apply Z.div_unique with (r := x - q * V); lia.
Qed.
Lemma word_unique V w w' x : 0 < V -> (V | w) -> (V | w') -> w <= x < w + V -> w' <= x < w' + V -> w = w'.
Proof.
  intros HV H1 H2 H3 H4. rewrite (multiple_below V w x), (multiple_below V w' x); auto.
Qed.

Section ProcessProofs.
  Context (E : penv).
  Let p := e_p E.
  Let W := word_size p.
  Hypothesis Hpid : good_pid E.

  Lemma set_mem_same s : set_mem s (s_mem s) = s.
  Proof. destruct s; reflexivity. Qed.

  Lemma pid_small : truncateWord p (e_pid E) = e_pid E.
  Proof. apply truncate_word_small, small_word. red in Hpid. lia. Qed.

  Lemma c_args_space c a n w : 0 < n -> in_space E a n -> (e_be E = Cptrace -> w < 2 ^ 63) -> 0 <= w ->
    c_args (e_be E) p c (e_pid E) a w = Ok (the_request p c (e_pid E) a w).
  Proof.
    intros Hn (H0 & H1 & H2) Hw Hw0. destruct (e_be E); [apply c_args_ctypes|].
    apply c_args_cptrace; unfold signed_64; specialize (H2 eq_refl); specialize (Hw eq_refl); lia.
  Qed.

  Lemma the_request_space c a n w : 0 <= c < 2 ^ 32 -> 0 < n -> in_space E a n -> 0 <= w < 2 ^ wbits p ->
    the_request p c (e_pid E) a w = Req c (e_pid E) a w.
  Proof.
    intros Hc Hn (H0 & H1 & _) Hw. unfold the_request. rewrite pid_small.
    rewrite (truncate_word_small p c) by now apply small_word.
    rewrite (truncate_word_small p a) by (fold p in H1; rewrite wbits_eq in H1; lia).
    now rewrite (truncate_word_small p w).
  Qed.

  Lemma readWord_cases a s :
    (W | a) -> in_space E a W ->
    match k_bytes (s_mem s) a (Z.to_nat W) with
    | Some bs => readWord E a s = (s, Ok (stored_word p bs))
    | None => exists e, readWord E a s = (s, Err (EPtraceError (Some e)))
    end.
  Proof.
    intros Hd Hs. unfold readWord, run_call, ptrace_peektext, peek. fold p.
    rewrite aligned_mod by assumption. cbn [negb].
    pose proof (word_size_pos p) as HW.
    assert (Hrq : the_request p PTRACE_PEEKTEXT (e_pid E) a 0 = Req 1 (e_pid E) a 0).
    { eapply the_request_space with (n := W); auto; [unfold PTRACE_PEEKTEXT; lia|].
      destruct (wbits_cases p) as [[_ ->]|[_ ->]]; lia. }
    assert (Hans : kmem_answer p (e_pid E) (s_mem s) (Req 1 (e_pid E) a 0)
                   = match k_bytes (s_mem s) a (Z.to_nat W) with
                     | Some bs => KOk (stored_word p bs) | None => KErr EIO end).
    { unfold kmem_answer. cbn [rq_pid rq_command rq_arg1]. rewrite Z.eqb_refl. reflexivity. }
    rewrite ptrace_result.
    - rewrite Hrq, Hans. cbn [fold_left].
      assert (kmem_apply p (e_pid E) (s_mem s) (Req 1 (e_pid E) a 0) = s_mem s) as ->.
      { unfold kmem_apply. cbn [rq_pid rq_command]. rewrite andb_false_r. reflexivity. }
      rewrite set_mem_same.
      destruct (k_bytes (s_mem s) a (Z.to_nat W)); cbn; eauto.
    - unfold PTRACE_PEEKTEXT; lia.
    - reflexivity.
    - auto.
    - eapply c_args_space with (n := W); auto; lia.
    - rewrite Hrq, Hans. destruct (k_bytes (s_mem s) a (Z.to_nat W)) as [bs|] eqn:Eb.
      + apply k_bytes_spec in Eb as [_ Hl]. split; [|left; unfold PTRACE_PEEKTEXT; lia].
        rewrite wbits_eq. apply stored_word_range. rewrite zlen_nat, Hl. unfold W in *. lia.
      + discriminate.
  Qed.

  Lemma in_space_sub a n a' n' : in_space E a n -> a <= a' -> a' + n' <= a + n -> in_space E a' n'.
  Proof. intros (H0 & H1 & H2) Ha Hn. repeat split; try lia. intros Hc. specialize (H2 Hc). lia. Qed.

  (** The space ends at a multiple of the word size. *)
  Lemma space_word a n w : in_space E a n -> (W | w) -> 0 <= w < a + n -> in_space E w W.
  Proof.
    intros (H0 & H1 & H2) [q Hq] Hw. pose proof (word_size_pos p) as HW. fold W in HW.
    assert (HM : forall M m, M = m * W -> w < M -> w + W <= M).
    { intros M m -> Hlt. rewrite Hq in *. clear - Hlt HW. assert (q < m) by nia. nia. }
    repeat split; [lia| |].
    - fold p in H1 |- *. fold W in H1 |- *. eapply HM; [|lia].
      instantiate (1 := 2 ^ (8 * W) / W). unfold W, word_size. destruct (p_64bits p); reflexivity.
    - intros Hc. specialize (H2 Hc). eapply HM; [|lia].
      instantiate (1 := 2 ^ 63 / W). unfold W, word_size. destruct (p_64bits p); reflexivity.
  Qed.

  Lemma words_mapped_cons k a n : (W | a) -> 0 < n ->
    (words_mapped p k a n <-> mapped k a W /\ words_mapped p k (a + W) (n - W)).
  Proof.
    intros Hd Hn. pose proof (word_size_pos p) as HW. split.
    - intros H. split.
      + apply (H a a); [lia|]. split; [exact Hd|fold W; lia].
      + intros x w Hx Hw. apply (H x w); [lia|exact Hw].
    - intros [H1 H2] x w Hx Hw. destruct (Z.lt_ge_cases x (a + W)) as [Hlt|Hge].
      + destruct Hw as [Hw1 Hw2].
        assert (w = a) as -> by (apply (word_unique W w a x); auto; lia). exact H1.
      + apply (H2 x w); [lia|exact Hw].
  Qed.
  Lemma words_mapped_nil k a n : n <= 0 -> words_mapped p k a n.
  Proof. intros Hn x w Hx. lia. Qed.

  Lemma k_bytes_word k a : (exists bs, k_bytes k a (Z.to_nat W) = Some bs) <-> mapped k a W.
  Proof.
    pose proof (word_size_pos p) as HW. rewrite k_bytes_mapped, Z2Nat.id by (unfold W; lia). reflexivity.
  Qed.

  Lemma loop_spec fuel : forall size a data s,
    (W | a) -> 0 <= size < Z.of_nat fuel -> in_space E a size ->
    (words_mapped p (s_mem s) a size /\
     exists bs, stored (s_mem s) a bs /\ zlen bs = size /\
                readBytes_loop E fuel data a size s = (s, Ok (data ++ bs))) \/
    (~ words_mapped p (s_mem s) a size /\
     exists e, readBytes_loop E fuel data a size s = (s, Err (EPtraceError (Some e)))).
  Proof.
    induction fuel as [|fuel IH]; intros size a data s Hd Hsz Hsp; [lia|].
    pose proof (word_size_pos p) as HW. fold W in HW.
    cbn [readBytes_loop]. fold p. fold W. destruct (size =? 0) eqn:E0.
    - left. apply Z.eqb_eq in E0. split; [apply words_mapped_nil; lia|].
      exists []. split; [intros [|i] b H; discriminate|]. split; [now rewrite zlen_nil|].
      now rewrite app_nil_r.
    - apply Z.eqb_neq in E0.
      assert (Hspw : in_space E a W) by (eapply space_word; [exact Hsp|exact Hd|destruct Hsp; lia]).
      pose proof (readWord_cases a s Hd Hspw) as Hr.
      rewrite words_mapped_cons by (auto; lia). rewrite <- k_bytes_word.
      destruct (k_bytes (s_mem s) a (Z.to_nat W)) as [bs|] eqn:Eb.
      + apply k_bytes_spec in Eb as [Hst Hl].
        assert (zlen bs = W) as HlW by (rewrite zlen_nat, Hl; lia).
        unfold mbind, lift. rewrite !Hr. rewrite word2bytes_stored by assumption.
        destruct (size <? W) eqn:Elt.
        * left. split; [split; [eauto|apply words_mapped_nil; lia]|].
          exists (firstn (Z.to_nat size) bs). split; [now apply stored_firstn|].
          split; [rewrite zlen_firstn; lia|]. rewrite pyslice_to by lia. reflexivity.
        * assert (Hd' : (W | a + W)) by (apply Z.divide_add_r; [assumption|apply Z.divide_refl]).
          destruct (IH (size - W) (a + W) (data ++ bs) s Hd') as [[Hm (bs' & Hs' & Hl' & Hres)]|[Hm [e He]]].
          -- lia.
          -- eapply in_space_sub; [exact Hsp|lia|lia].
          -- left. split; [split; eauto|]. exists (bs ++ bs'). split; [apply stored_app; rewrite HlW; auto|].
             split; [rewrite zlen_app; lia|]. rewrite Hres. now rewrite app_assoc.
          -- right. split; [tauto|]. exists e. exact He.
      + right. destruct Hr as [e He]. split; [intros [[bs H] _]; discriminate|].
        exists e. unfold mbind. now rewrite He.
  Qed.

  Lemma floor_word a : (W | a - a mod W) /\ a - a mod W <= a < a - a mod W + W.
  Proof.
    pose proof (word_size_pos p) as HW. fold W in HW. pose proof (Z.mod_pos_bound a W HW).
    split; [|lia]. exists (a / W). pose proof (Z.div_mod a W). lia.
  Qed.

  Lemma readBytes_ptrace_spec a n s :
    0 < n \/ (n = 0 /\ (W | a)) -> in_space E a n ->
    (words_mapped p (s_mem s) a n /\
     exists bs, stored (s_mem s) a bs /\ zlen bs = n /\ readBytes_ptrace E a n s = (s, Ok bs)) \/
    (~ words_mapped p (s_mem s) a n /\
     exists e, readBytes_ptrace E a n s = (s, Err (EPtraceError (Some e)))).
  Proof.
    intros Hn Hsp. pose proof (word_size_pos p) as HW. fold W in HW.
    pose proof (floor_word a) as [Hd Hfl]. pose proof (Z.mod_pos_bound a W HW) as Hmod.
    unfold readBytes_ptrace. fold p. fold W.
    destruct (a mod W =? 0) eqn:E0; cbn [negb].
    - apply Z.eqb_eq in E0.
      assert (Hda : (W | a)) by (rewrite E0, Z.sub_0_r in Hd; exact Hd).
      apply (loop_spec (S (Z.to_nat n)) n a [] s Hda); [lia|exact Hsp].
    - apply Z.eqb_neq in E0.
      destruct Hn as [Hn|[_ Hda]].
      2:{ exfalso. apply E0. apply Z.mod_divide; [lia|exact Hda]. }
      set (w := a - a mod W) in *. set (off := a mod W) in *.
      assert (Hw0 : 0 <= w).
      { destruct Hsp as [H0 _]. destruct Hd as [q Hq]. assert (off <= a) by (apply Z.mod_le; lia). lia. }
      assert (Hspw : in_space E w W) by (eapply space_word; [exact Hsp|exact Hd|lia]).
      set (sub := Z.min (W - off) n).
      assert (Hwm : words_mapped p (s_mem s) a n <->
                    mapped (s_mem s) w W /\ words_mapped p (s_mem s) (w + W) (n - sub)).
      { split.
        - intros H. split; [apply (H a w); [lia|split; [exact Hd|fold W; lia]]|].
          intros x w' Hx Hw'. apply (H x w'); [lia|exact Hw'].
        - intros [H1 H2] x w' Hx Hw'. destruct (Z.lt_ge_cases x (w + W)) as [Hlt|Hge].
          + destruct Hw' as [Hw1 Hw2].
            assert (w' = w) as -> by (apply (word_unique W w' w x); auto; lia). exact H1.
          + apply (H2 x w'); [lia|exact Hw']. }
      rewrite Hwm. pose proof (readWord_cases w s Hd Hspw) as Hr.
      rewrite <- k_bytes_word. unfold mbind, lift.
      destruct (k_bytes (s_mem s) w (Z.to_nat W)) as [bs|] eqn:Eb.
      + apply k_bytes_spec in Eb as [Hst Hl].
        assert (zlen bs = W) as HlW by (rewrite zlen_nat, Hl; lia).
        rewrite !Hr. rewrite word2bytes_stored by assumption.
        rewrite pyslice_mid by lia. replace (off + sub - off) with sub by lia.
        set (d := firstn (Z.to_nat sub) (skipn (Z.to_nat off) bs)).
        assert (Hds : stored (s_mem s) a d).
        { apply stored_firstn. replace a with (w + Z.of_nat (Z.to_nat off)) by lia.
          apply stored_skipn; [|exact Hst]. rewrite zlen_nat in HlW. lia. }
        assert (Hdl : zlen d = sub).
        { unfold d. rewrite zlen_firstn, zlen_skipn. lia. }
        assert (Hd' : (W | w + W)) by (apply Z.divide_add_r; [assumption|apply Z.divide_refl]).
        destruct (loop_spec (S (Z.to_nat n)) (n - sub) (w + W) d s Hd') as [[Hm (bs' & Hs' & Hl' & Hres)]|[Hm [e He]]].
        * lia.
        * destruct (Z.le_gt_cases n (W - off)).
          -- replace (n - sub) with 0 by lia. destruct Hspw as (A & B & C). repeat split; try lia.
             intros Hc. specialize (C Hc). lia.
          -- eapply in_space_sub; [exact Hsp|lia|lia].
        * left. split; [split; eauto|]. exists (d ++ bs'). split; [|split].
          -- apply stored_app. split; [exact Hds|]. rewrite Hdl.
             destruct (Z.le_gt_cases n (W - off)).
             ++ assert (bs' = []) as -> by (destruct bs'; [reflexivity|rewrite zlen_cons in Hl'; pose proof (zlen_nonneg bs'); lia]).
                intros [|i] b Hi; discriminate.
             ++ replace (a + sub) with (w + W) by lia. exact Hs'.
          -- rewrite zlen_app. lia.
          -- exact Hres.
        * right. split; [tauto|]. exists e. exact He.
      + right. destruct Hr as [e He]. split; [intros [[bs H] _]; discriminate|].
        exists e. now rewrite He.
  Qed.

  (** ** State changes of the reads: none but the bookkeeping *)
  Lemma peek_requests be clears errno0 kernel c pid a : 
    fst (peek be p clears errno0 kernel c pid a) = [] \/
    exists rq, fst (peek be p clears errno0 kernel c pid a) = [rq] /\ rq_command rq = truncateWord p c.
  Proof.
    unfold peek. destruct (negb _); [now left|]. unfold ptrace.
    destruct (c_args be p c pid a 0) as [rq|e] eqn:Ec; [|now left]. right.
    destruct (libc_ptrace p clears _ rq (kernel rq)). exists rq. split; [reflexivity|].
    unfold c_args in Ec. destruct be; [injection Ec as <-; reflexivity|].
    destruct (_ || _) in Ec; [discriminate|]. injection Ec as <-. reflexivity.
  Qed.
  Lemma readWord_state a s : fst (readWord E a s) = s.
  Proof.
    unfold readWord, run_call, ptrace_peektext. fold p.
    pose proof (peek_requests (e_be E) true 0 (kmem_answer p (e_pid E) (s_mem s)) PTRACE_PEEKTEXT (e_pid E) a) as H.
    destruct (peek _ _ _ _ _ _ _ _) as [rqs r]. cbn [fst] in *.
    destruct H as [->|[rq [-> Hc]]]; cbn [fold_left]; [apply set_mem_same|].
    assert (rq_command rq = 1) as Hc1.
    { rewrite Hc. apply truncate_word_small, small_word. unfold PTRACE_PEEKTEXT; lia. }
    unfold kmem_apply. rewrite Hc1. cbn. rewrite andb_false_r. cbn. apply set_mem_same.
  Qed.
  Lemma loop_state fuel : forall data a n s, fst (readBytes_loop E fuel data a n s) = s.
  Proof.
    induction fuel as [|fuel IH]; intros data a n s; [reflexivity|].
    cbn [readBytes_loop]. destruct (n =? 0); [reflexivity|].
    unfold mbind at 1. pose proof (readWord_state a s) as H. destruct (readWord E a s) as [s' [w|e]]; cbn in H; subst s'; [|reflexivity].
    unfold mbind, lift. destruct (word2bytes (e_p E) w); [|reflexivity].
    destruct (n <? word_size (e_p E)); [reflexivity|]. apply IH.
  Qed.
  Lemma readBytes_ptrace_state a n s : fst (readBytes_ptrace E a n s) = s.
  Proof.
    unfold readBytes_ptrace. destruct (negb _); [|apply loop_state].
    unfold mbind at 1. match goal with |- context [readWord E ?x s] => pose proof (readWord_state x s) as H; destruct (readWord E x s) as [s' [w|e]] end; cbn in H; subst s'; [|reflexivity].
    unfold mbind, lift. destruct (word2bytes (e_p E) w); [|reflexivity]. apply loop_state.
  Qed.
  Lemma readBytes_mem a n s : s_mem (fst (readBytes E a n s)) = s_mem s.
  Proof.
    unfold readBytes. destruct (has_ptrace_io _).
    - unfold readBytes_io. destruct (n <? 0); [reflexivity|]. destruct (_ && _); reflexivity.
    - destruct (has_proc _); [|now rewrite readBytes_ptrace_state].
      destruct (s_fallback s); [now rewrite readBytes_ptrace_state|].
      unfold readBytes_procmem.
      set (s1 := match s_file s with FileNone => _ | _ => _ end).
      assert (s_mem s1 = s_mem s) as H1 by (unfold s1; destruct (s_file s), (e_open E); reflexivity).
      destruct (s_file s1); [|destruct (_ <=? a); [exact H1|destruct (a <? 0); [exact H1|]]|exact H1].
      + destruct (e_open E) as [|[]]; rewrite ?readBytes_ptrace_state; exact H1.
      + destruct (e_read E (s_mem s1) a n) as [d|[]]; try exact H1.
        destruct (_ && _); [rewrite readBytes_ptrace_state|]; exact H1.
  Qed.
End ProcessProofs.
