(** * PyFacts: lemmas about the runtime fragment of PyBase. *)
From Coq Require Import ZArith List Ascii String Bool Lia.
From Verif Require Import PyBase.
Import ListNotations.
Open Scope Z_scope.

(** ** Lengths *)
Lemma zlen_app {A} (a b : list A) : zlen (a ++ b) = zlen a + zlen b.
Proof. unfold zlen. rewrite app_length. lia. Qed.
Lemma zlen_nonneg {A} (a : list A) : 0 <= zlen a.
Proof. unfold zlen. lia. Qed.
Lemma zlen_cons {A} x (a : list A) : zlen (x :: a) = 1 + zlen a.
Proof. unfold zlen. simpl List.length. lia. Qed.
Lemma zlen_nil {A} : zlen (@nil A) = 0.
Proof. reflexivity. Qed.

(** ** Bytes *)
Lemma b2z_range b : 0 <= b2z b < 256.
Proof.
  unfold b2z. pose proof (N_ascii_bounded b). lia.
Qed.

Lemma z2b_b2z b : z2b (b2z b) = b.
Proof.
  unfold z2b. rewrite Z.mod_small by apply b2z_range.
  unfold b2z. rewrite N2Z.id. apply ascii_N_embedding.
Qed.

Lemma b2z_z2b z : b2z (z2b z) = z mod 256.
Proof.
  unfold z2b, b2z. pose proof (Z.mod_pos_bound z 256 ltac:(lia)).
  rewrite N_ascii_embedding by lia. rewrite Z2N.id; lia.
Qed.

Lemma b2z_z2b_small z : 0 <= z < 256 -> b2z (z2b z) = z.
Proof. intros. rewrite b2z_z2b. now apply Z.mod_small. Qed.

Lemma b2z_inj a b : b2z a = b2z b -> a = b.
Proof. intros H. rewrite <- (z2b_b2z a), <- (z2b_b2z b). now rewrite H. Qed.

Lemma eqb_refl_ascii c : Ascii.eqb c c = true.
Proof. apply Ascii.eqb_refl. Qed.

Lemma forall_ascii (P : ascii -> bool) :
  forallb (fun n => P (ascii_of_nat n)) (seq 0 256) = true -> forall c, P c = true.
Proof.
  intros H c. rewrite forallb_forall in H.
  rewrite <- (ascii_nat_embedding c). apply H.
  apply in_seq. pose proof (nat_ascii_bounded c). lia.
Qed.

(** ** Text equality *)
Lemma text_eqb_refl a : text_eqb a a = true.
Proof. induction a; simpl; auto. rewrite Ascii.eqb_refl. auto. Qed.

Lemma text_eqb_eq a b : text_eqb a b = true <-> a = b.
Proof.
  revert b. induction a as [|x a IH]; destruct b as [|y b]; simpl; split; intros H; try easy.
  - apply andb_prop in H as [H1 H2]. apply Ascii.eqb_eq in H1. apply IH in H2. congruence.
  - inversion H; subst. rewrite Ascii.eqb_refl. simpl. now apply IH.
Qed.

Lemma text_eqb_neq a b : text_eqb a b = false <-> a <> b.
Proof.
  destruct (text_eqb a b) eqn:E.
  - apply text_eqb_eq in E. split; congruence.
  - split; auto. intros _ H. apply text_eqb_eq in H. congruence.
Qed.

Lemma text_dec (a b : text) : {a = b} + {a <> b}.
Proof. apply (list_eq_dec ascii_dec). Qed.

(** ** Digits *)
Lemma digit_char_val d : 0 <= d < 36 -> digit_val (digit_char d) = Some d.
Proof.
  intros H. unfold digit_char, digit_val.
  destruct (d <? 10) eqn:E; [apply Z.ltb_lt in E|apply Z.ltb_ge in E];
    rewrite b2z_z2b_small by lia.
  - replace ((48 <=? 48 + d) && (48 + d <=? 57)) with true by (symmetry; apply andb_true_intro; split; apply Z.leb_le; lia).
    f_equal; lia.
  - replace ((48 <=? 87 + d) && (87 + d <=? 57)) with false.
    2:{ symmetry; apply andb_false_intro2; apply Z.leb_gt; lia. }
    replace ((97 <=? 87 + d) && (87 + d <=? 122)) with true by (symmetry; apply andb_true_intro; split; apply Z.leb_le; lia).
    f_equal; lia.
Qed.

Lemma read_digits_app b s1 s2 acc :
  read_digits b (s1 ++ s2) acc =
  match read_digits b s1 acc with Some a => read_digits b s2 a | None => None end.
Proof.
  revert acc. induction s1 as [|c s1 IH]; intros acc; simpl; auto.
  destruct (digit_val c); auto. destruct (z <? b); auto.
Qed.

Lemma read_digits_acc b s acc v :
  read_digits b s acc = Some v ->
  forall acc', read_digits b s acc' = Some (v + (acc' - acc) * b ^ zlen s).
Proof.
  revert acc v. induction s as [|c s IH]; intros acc v H acc'; cbn [read_digits] in *.
  - inversion H; subst. unfold zlen; simpl. f_equal. lia.
  - destruct (digit_val c) as [d|]; try easy. destruct (d <? b); try easy.
    rewrite (IH _ _ H). f_equal. rewrite zlen_cons, Z.add_1_l, Z.pow_succ_r by apply zlen_nonneg. ring.
Qed.

Lemma digits_aux_read fuel b n acc :
  2 <= b <= 36 -> 0 <= n -> n < b ^ Z.of_nat fuel -> (0 < fuel)%nat ->
  forall v, read_digits b acc n = v -> read_digits b (digits_aux fuel b n acc) 0 = v.
Proof.
  intros Hb. revert n acc. induction fuel as [|fuel IH]; intros n acc Hn Hlt Hf v Hv; [lia|].
  cbn [digits_aux].
  pose proof (Z.mod_pos_bound n b ltac:(lia)) as Hm.
  pose proof (Z.div_mod n b ltac:(lia)) as Hd.
  assert (Hstep : forall a, read_digits b (digit_char (n mod b) :: acc) a
                            = read_digits b acc (a * b + n mod b)).
  { intros a. cbn [read_digits]. rewrite digit_char_val by lia.
    now replace (n mod b <? b) with true by (symmetry; apply Z.ltb_lt; lia). }
  destruct (n / b =? 0) eqn:E.
  - apply Z.eqb_eq in E. rewrite Hstep. rewrite <- Hv. f_equal. nia.
  - apply Z.eqb_neq in E.
    assert (0 <= n / b) by (apply Z.div_pos; lia).
    assert (n / b < b ^ Z.of_nat fuel).
    { apply Z.div_lt_upper_bound; [lia|].
      rewrite Nat2Z.inj_succ, Z.pow_succ_r in Hlt by lia. lia. }
    apply IH; auto.
    + destruct fuel; [simpl in *; lia|lia].
    + rewrite Hstep. rewrite <- Hv. f_equal. lia.
Qed.

Lemma digits_fuel b n : 2 <= b -> 0 <= n -> n < b ^ Z.of_nat (S (Z.to_nat (Z.log2 n))).
Proof.
  intros Hb Hn. rewrite Nat2Z.inj_succ, Z2Nat.id by apply Z.log2_nonneg.
  destruct (Z.eq_dec n 0) as [->|Hz].
  - apply Z.pow_pos_nonneg; try lia. pose proof (Z.log2_nonneg 0); lia.
  - pose proof (Z.log2_spec n ltac:(lia)) as [_ H].
    eapply Z.lt_le_trans; [exact H|]. apply Z.pow_le_mono_l. pose proof (Z.log2_nonneg n); lia.
Qed.

Lemma digits_read b n : 2 <= b <= 36 -> 0 <= n -> read_digits b (digits b n) 0 = Some n.
Proof.
  intros Hb Hn. unfold digits. eapply digits_aux_read; auto; try lia.
  apply digits_fuel; lia.
Qed.

Lemma digits_aux_nonempty fuel b n acc : (0 < fuel)%nat -> digits_aux fuel b n acc <> [].
Proof.
  intros Hf. revert n acc.
  assert (H : forall fuel n acc, acc <> [] -> digits_aux fuel b n acc <> []).
  { clear. induction fuel as [|fuel IH]; intros n acc H; auto. cbn [digits_aux].
    destruct (n / b =? 0); [easy|]. now apply IH. }
  intros n acc. destruct fuel; [lia|]. cbn [digits_aux].
  destruct (n / b =? 0); [easy|]. now apply H.
Qed.

Lemma digits_nonempty b n : digits b n <> [].
Proof. apply digits_aux_nonempty. lia. Qed.

Lemma read_uint_digits b n : 2 <= b <= 36 -> 0 <= n -> read_uint b (digits b n) = Some n.
Proof.
  intros Hb Hn. unfold read_uint.
  pose proof (digits_nonempty b n). destruct (digits b n) eqn:E; [easy|].
  rewrite <- E. now apply digits_read.
Qed.

Lemma digits_inj b n m : 2 <= b <= 36 -> 0 <= n -> 0 <= m -> digits b n = digits b m -> n = m.
Proof.
  intros Hb Hn Hm H. pose proof (digits_read b n Hb Hn). pose proof (digits_read b m Hb Hm).
  congruence.
Qed.

Lemma digits_aux_length fuel b n acc k :
  2 <= b -> 0 <= n -> 1 <= k -> n < b ^ k ->
  zlen (digits_aux fuel b n acc) <= k + zlen acc.
Proof.
  intros Hb. revert n acc k. induction fuel as [|fuel IH]; intros n acc k Hn Hk Hlt.
  - unfold zlen; simpl. lia.
  - cbn [digits_aux]. destruct (n / b =? 0) eqn:E.
    + unfold zlen; simpl. lia.
    + apply Z.eqb_neq in E.
      assert (k <> 1). { intros ->. apply E. apply Z.div_small. lia. }
      assert (0 <= n / b) by (apply Z.div_pos; lia).
      eapply Z.le_trans; [apply (IH _ _ (k - 1)); try lia|].
      * apply Z.div_lt_upper_bound; [lia|]. replace k with (Z.succ (k - 1)) in Hlt by lia.
        rewrite Z.pow_succ_r in Hlt by lia. lia.
      * rewrite zlen_cons. lia.
Qed.

Lemma digits_length b n k :
  2 <= b -> 0 <= n -> 1 <= k -> n < b ^ k -> zlen (digits b n) <= k.
Proof.
  intros. pose proof (digits_aux_length (S (Z.to_nat (Z.log2 n))) b n [] k). unfold digits.
  rewrite (@zlen_nil ascii) in H3. lia.
Qed.

Lemma digits_aux_Forall (P : ascii -> Prop) fuel b n acc :
  2 <= b -> (forall d, 0 <= d < b -> P (digit_char d)) -> Forall P acc -> 0 <= n ->
  Forall P (digits_aux fuel b n acc).
Proof.
  intros Hb HP. revert n acc. induction fuel as [|fuel IH]; intros n acc Ha Hn; auto.
  cbn [digits_aux].
  assert (P (digit_char (n mod b))) by (apply HP; apply Z.mod_pos_bound; lia).
  destruct (n / b =? 0); [now constructor|]. apply IH; auto.
  apply Z.div_pos; lia.
Qed.

Lemma digits_Forall (P : ascii -> Prop) b n :
  2 <= b -> (forall d, 0 <= d < b -> P (digit_char d)) -> 0 <= n -> Forall P (digits b n).
Proof. intros. apply digits_aux_Forall; auto. Qed.

(** leading zeros do not change the value *)
Lemma read_digits_zeros b k s :
  2 <= b -> read_digits b (repeat "0"%char k ++ s) 0 = read_digits b s 0.
Proof.
  intros Hb. induction k as [|k IH]; simpl; auto.
  now replace (0 <? b) with true by (symmetry; apply Z.ltb_lt; lia).
Qed.

Lemma read_padl b w s : 2 <= b -> read_digits b (padl w "0"%char s) 0 = read_digits b s 0.
Proof. intros. unfold padl. now apply read_digits_zeros. Qed.

Lemma padl_length w c s : List.length (padl w c s) = Nat.max w (List.length s).
Proof. unfold padl. rewrite app_length, repeat_length. lia. Qed.

Lemma read_uint_padl b w s v :
  2 <= b -> s <> [] -> read_digits b s 0 = v -> read_uint b (padl w "0"%char s) = v.
Proof.
  intros Hb Hs H. rewrite <- (read_padl b w s Hb) in H. unfold read_uint.
  destruct (padl w "0"%char s) eqn:E; auto.
  unfold padl in E. apply app_eq_nil in E. tauto.
Qed.

(** ** starts_with / find *)
Lemma starts_with_spec p s : starts_with p s = true <-> exists r, s = p ++ r.
Proof.
  revert s. induction p as [|x p IH]; intros s; simpl.
  - split; eauto.
  - destruct s as [|y s]; [split; [easy|intros [r H]; easy]|].
    rewrite andb_true_iff, Ascii.eqb_eq, IH. split.
    + intros [-> [r ->]]. eauto.
    + intros [r H]. inversion H; subst. eauto.
Qed.

Lemma starts_with_app p s : starts_with p (p ++ s) = true.
Proof. apply starts_with_spec. eauto. Qed.

Lemma ends_with_spec p s : ends_with p s = true <-> exists r, s = r ++ p.
Proof.
  unfold ends_with. rewrite starts_with_spec. split; intros [r H].
  - exists (rev r). rewrite <- (rev_involutive s), H, rev_app_distr, rev_involutive. auto.
  - exists (rev r). now rewrite H, rev_app_distr.
Qed.

(** ** split / join *)
Lemma split_char_nonempty c s : split_char c s <> [].
Proof. destruct s; simpl; try easy. destruct (split_char c s); try easy. now destruct (Ascii.eqb a c). Qed.

Lemma split_char_none c s : ~ In c s -> split_char c s = [s].
Proof.
  induction s as [|x s IH]; simpl; intros H; auto.
  rewrite IH by tauto. destruct (Ascii.eqb x c) eqn:E; auto.
  apply Ascii.eqb_eq in E. tauto.
Qed.

Lemma split_char_app c a s : ~ In c a -> split_char c (a ++ c :: s) = a :: split_char c s.
Proof.
  induction a as [|x a IH]; simpl; intros H.
  - rewrite Ascii.eqb_refl. pose proof (split_char_nonempty c s).
    destruct (split_char c s); easy.
  - rewrite IH by tauto. destruct (Ascii.eqb x c) eqn:E; auto.
    apply Ascii.eqb_eq in E. tauto.
Qed.

Lemma split_join c l :
  l <> [] -> (forall x, In x l -> ~ In c x) -> split_char c (join [c] l) = l.
Proof.
  induction l as [|x l IH]; intros Hl H; [easy|].
  destruct l as [|y l].
  - simpl. apply split_char_none. apply H. now left.
  - change (join [c] (x :: y :: l)) with (x ++ c :: join [c] (y :: l)).
    rewrite split_char_app by (apply H; now left).
    f_equal. apply IH; [easy|]. intros z Hz. apply H. now right.
Qed.

Lemma split1_spec c s a b : split1 c s = Some (a, b) <-> s = a ++ c :: b /\ ~ In c a.
Proof.
  revert a b. induction s as [|x s IH]; intros a b; simpl.
  - split; [easy|]. intros [H _]. now destruct a.
  - destruct (Ascii.eqb x c) eqn:E.
    + apply Ascii.eqb_eq in E. subst x. split.
      * intros H; inversion H; subst. now split.
      * intros [H Hn]. destruct a as [|y a]; simpl in H; inversion H; subst; auto.
        exfalso. apply Hn. now left.
    + apply Ascii.eqb_neq in E. destruct (split1 c s) as [[a' b']|] eqn:Es.
      * destruct (proj1 (IH a' b') eq_refl) as [H1 H2]. split.
        -- intros H; inversion H; subst. split; auto. simpl. intros [?|?]; subst; tauto.
        -- intros [H Hn]. destruct a as [|y a]; simpl in H; inversion H; subst; [easy|].
           simpl in Hn. assert (Some (a', b') = Some (a, b)) as He.
           { apply IH. split; tauto. } inversion He. reflexivity.
      * split; [easy|]. intros [H Hn]. destruct a as [|y a]; simpl in H; inversion H; subst; [easy|].
        assert (None = Some (a, b)) as He by (apply IH; split; simpl in Hn; tauto). easy.
Qed.

Lemma split1_none c s : split1 c s = None <-> ~ In c s.
Proof.
  induction s as [|x s IH]; simpl; [tauto|].
  destruct (Ascii.eqb x c) eqn:E.
  - apply Ascii.eqb_eq in E. split; [easy|tauto].
  - apply Ascii.eqb_neq in E. destruct (split1 c s) as [[? ?]|].
    + split; [easy|]. intros H. exfalso. assert (Some (l, l0) = None) by (apply IH; tauto). easy.
    + split; auto. intros _ [H|H]; [easy|]. now apply IH in H.
Qed.

Lemma rsplit1_spec c s a b : rsplit1 c s = Some (a, b) <-> s = a ++ c :: b /\ ~ In c b.
Proof.
  unfold rsplit1. destruct (split1 c (rev s)) as [[x y]|] eqn:E.
  - apply split1_spec in E as [E1 E2]. split.
    + intros H; inversion H; subst. rewrite <- (rev_involutive s), E1, rev_app_distr. simpl.
      rewrite <- app_assoc. simpl. split; auto. now rewrite <- in_rev.
    + intros [H Hn]. assert (rev s = rev b ++ c :: rev a) as Hr.
      { rewrite H, rev_app_distr. simpl. now rewrite <- app_assoc. }
      assert (split1 c (rev s) = Some (x, y)) as H1 by (apply split1_spec; auto).
      assert (split1 c (rev s) = Some (rev b, rev a)) as H2.
      { apply split1_spec. split; auto. now rewrite <- in_rev. }
      rewrite H1 in H2. inversion H2. now rewrite !rev_involutive.
  - split; [easy|]. intros [H Hn]. apply split1_none in E. exfalso. apply E.
    rewrite <- in_rev. subst s. apply in_or_app. right. now left.
Qed.

(** ** Dictionaries *)
Section DictFacts.
  Context {K V : Type} (eqb : K -> K -> bool).
  Hypothesis eqb_spec : forall a b, eqb a b = true <-> a = b.

  Lemma deqb_refl a : eqb a a = true.
  Proof. now apply eqb_spec. Qed.
  Lemma deqb_neq a b : a <> b -> eqb a b = false.
  Proof. intros H. destruct (eqb a b) eqn:E; auto. apply eqb_spec in E. easy. Qed.

  Lemma dget_dset_same k (v : V) d : dget eqb k (dset eqb k v d) = Some v.
  Proof.
    induction d as [|[k' v'] d IH]; simpl.
    - now rewrite deqb_refl.
    - destruct (eqb k k') eqn:E; simpl; rewrite E; auto.
  Qed.

  Lemma dget_dset_other k k2 (v : V) d : k2 <> k -> dget eqb k2 (dset eqb k v d) = dget eqb k2 d.
  Proof.
    intros H. induction d as [|[k' v'] d IH]; simpl.
    - now rewrite deqb_neq.
    - destruct (eqb k k') eqn:E; simpl.
      + apply eqb_spec in E. subst k'. now rewrite !deqb_neq.
      + now rewrite IH.
  Qed.

  Lemma dget_In k (v : V) d : dget eqb k d = Some v -> In (k, v) d.
  Proof.
    induction d as [|[k' v'] d IH]; simpl; [easy|].
    destruct (eqb k k') eqn:E; [|auto].
    apply eqb_spec in E. intros H; inversion H; subst. auto.
  Qed.

  Lemma dget_None k (d : list (K * V)) : dget eqb k d = None <-> ~ In k (map fst d).
  Proof.
    induction d as [|[k' v'] d IH]; simpl; [tauto|].
    destruct (eqb k k') eqn:E.
    - apply eqb_spec in E. subst. split; [easy|tauto].
    - rewrite IH. split; [|tauto]. intros H [H1|H1]; [|easy]. subst. now rewrite deqb_refl in E.
  Qed.

  Lemma dget_NoDup_In k (v : V) d : NoDup (map fst d) -> In (k, v) d -> dget eqb k d = Some v.
  Proof.
    induction d as [|[k' v'] d IH]; simpl; intros Hn Hi; [easy|].
    inversion Hn; subst. destruct Hi as [Hi|Hi].
    - inversion Hi; subst. now rewrite deqb_refl.
    - destruct (eqb k k') eqn:E; [|auto]. apply eqb_spec in E. subst.
      exfalso. apply H1. apply in_map_iff. exists (k', v). auto.
  Qed.

  Lemma dset_keys_new k (v : V) d : ~ In k (map fst d) -> dset eqb k v d = d ++ [(k, v)].
  Proof.
    induction d as [|[k' v'] d IH]; simpl; intros H; auto.
    rewrite deqb_neq by (intros ->; tauto). rewrite IH; tauto.
  Qed.

  Lemma dset_keys_old k (v : V) d : In k (map fst d) -> map fst (dset eqb k v d) = map fst d.
  Proof.
    induction d as [|[k' v'] d IH]; simpl; intros H; [easy|].
    destruct (eqb k k') eqn:E; auto. simpl. f_equal. apply IH.
    destruct H as [->|H]; auto. now rewrite deqb_refl in E.
  Qed.

  Lemma dset_NoDup k (v : V) d : NoDup (map fst d) -> NoDup (map fst (dset eqb k v d)).
  Proof.
    intros H. destruct (in_dec (fun a b => match bool_dec (eqb a b) true with
       | left e => left (proj1 (eqb_spec a b) e)
       | right n => right (fun e => n (proj2 (eqb_spec a b) e)) end) k (map fst d)) as [Hi|Hi].
    - now rewrite dset_keys_old.
    - rewrite dset_keys_new by auto. rewrite map_app. simpl.
      apply NoDup_rev in H. rewrite <- (rev_involutive (map fst d ++ [k])), rev_app_distr.
      apply NoDup_rev. simpl. constructor; auto. now rewrite <- in_rev.
  Qed.

  Lemma ddel_absent k (d : list (K * V)) : ~ In k (map fst d) -> ddel eqb k d = d.
  Proof.
    induction d as [|[k' v'] d IH]; simpl; intros H; auto.
    rewrite deqb_neq by (intros ->; tauto). rewrite IH; tauto.
  Qed.

  Lemma ddel_keys_In k k2 (d : list (K * V)) :
    NoDup (map fst d) -> (In k2 (map fst (ddel eqb k d)) <-> In k2 (map fst d) /\ k2 <> k).
  Proof.
    induction d as [|[k' v'] d IH]; simpl; intros Hn; [tauto|].
    inversion Hn; subst. destruct (eqb k k') eqn:E.
    - apply eqb_spec in E. subst k'. split.
      + intros H. split; [tauto|]. intros ->. easy.
      + intros [[H|H] Hne]; [congruence|auto].
    - simpl. rewrite IH by auto. split.
      + intros [->|[H Hne]]; [|tauto]. split; auto. intros ->. now rewrite deqb_refl in E.
      + tauto.
  Qed.

  Lemma dget_ddel_same k (d : list (K * V)) : NoDup (map fst d) -> dget eqb k (ddel eqb k d) = None.
  Proof.
    intros Hn. apply dget_None. rewrite ddel_keys_In by auto. tauto.
  Qed.

  Lemma dget_ddel_other k k2 (d : list (K * V)) : k2 <> k -> dget eqb k2 (ddel eqb k d) = dget eqb k2 d.
  Proof.
    intros H. induction d as [|[k' v'] d IH]; simpl; auto.
    destruct (eqb k k') eqn:E; simpl.
    - apply eqb_spec in E. subst. now rewrite deqb_neq.
    - now rewrite IH.
  Qed.
End DictFacts.

(** ** Slices *)
Lemma firstn_skipn_app {A} (n : nat) (l : list A) : firstn n l ++ skipn n l = l.
Proof. apply firstn_skipn. Qed.


Lemma zrange_In n z : In z (zrange n) <-> 0 <= z < Z.of_nat n.
Proof.
  unfold zrange. rewrite in_map_iff. split.
  - intros [k [<- H]]. apply in_seq in H. lia.
  - intros H. exists (Z.to_nat z). split; [lia|]. apply in_seq. lia.
Qed.
Lemma zrange_Forall (P : Z -> Prop) n :
  Forall P (zrange n) -> forall z, 0 <= z < Z.of_nat n -> P z.
Proof. intros H z Hz. rewrite Forall_forall in H. apply H. now apply zrange_In. Qed.

(** ** Boolean comparisons *)
Ltac zb := repeat match goal with
  | H : (_ <=? _) = true |- _ => apply Z.leb_le in H
  | H : (_ <=? _) = false |- _ => apply Z.leb_gt in H
  | H : (_ <? _) = true |- _ => apply Z.ltb_lt in H
  | H : (_ <? _) = false |- _ => apply Z.ltb_ge in H
  | H : (_ =? _) = true |- _ => apply Z.eqb_eq in H
  | H : (_ =? _) = false |- _ => apply Z.eqb_neq in H
  end.
Ltac blia := zb; try match goal with
  | |- (_ <=? _) = true => apply Z.leb_le
  | |- (_ <=? _) = false => apply Z.leb_gt
  | |- (_ <? _) = true => apply Z.ltb_lt
  | |- (_ <? _) = false => apply Z.ltb_ge
  | |- (_ =? _) = true => apply Z.eqb_eq
  | |- (_ =? _) = false => apply Z.eqb_neq
  | |- true = (_ <=? _) => symmetry; apply Z.leb_le
  | |- false = (_ <=? _) => symmetry; apply Z.leb_gt
  | |- true = (_ <? _) => symmetry; apply Z.ltb_lt
  | |- false = (_ <? _) => symmetry; apply Z.ltb_ge
  | |- true = (_ =? _) => symmetry; apply Z.eqb_eq
  | |- false = (_ =? _) => symmetry; apply Z.eqb_neq
  end; lia.
