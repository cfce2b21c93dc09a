From Coq Require Import ZArith List Ascii String Bool Lia.
From Verif Require Import PyBase PyFacts Platform IntModel IntSpec IntProofs CallModel CallSpec CallProofs MemModel MemSpec MemProofs MemProofs2.
Import ListNotations.
Open Scope Z_scope.

(** ** C strings *)
Definition nul : byte := z2b 0.
Lemma b2z_nul b : (b2z b =? 0) = Ascii.eqb b nul.
Proof.
  apply eq_true_iff_eq. rewrite Z.eqb_eq, Ascii.eqb_eq. split.
  - intros H. apply b2z_inj. rewrite H. reflexivity.
  - intros ->. reflexivity.
Qed.
Lemma find_nul_cons b d : find_nul (b :: d) =
  if Ascii.eqb b nul then Some O else option_map S (find_nul d).
Proof.
  unfold find_nul. cbn [find_sub starts_with]. fold nul. rewrite Ascii.eqb_sym.
  destruct (Ascii.eqb b nul); cbn [andb]; [destruct d; reflexivity|]. destruct (find_sub [nul] d); reflexivity.
Qed.
Lemma find_nul_upto d pos : find_nul d = Some pos -> firstn pos d = upto_nul d /\ first_nul d pos.
Proof.
  revert pos; induction d as [|b d IH]; intros pos H; [discriminate|].
  rewrite find_nul_cons in H. cbn [upto_nul]. rewrite b2z_nul.
  destruct (Ascii.eqb b nul) eqn:Eb.
  - injection H as <-. apply Ascii.eqb_eq in Eb. subst b. split; [reflexivity|].
    split; [reflexivity|intros []].
  - destruct (find_nul d) as [n|]; [|discriminate]. injection H as <-.
    destruct (IH n eq_refl) as [H1 [H2 H3]]. split; [cbn; now rewrite H1|].
    split; [exact H2|]. cbn. intros [->|Hin]; [|auto]. now rewrite eqb_refl_ascii in Eb.
Qed.
Lemma find_nul_none d : find_nul d = None -> upto_nul d = d /\ ~ In nul d.
Proof.
  induction d as [|b d IH]; intros H; [split; [reflexivity|intros []]|].
  rewrite find_nul_cons in H. cbn [upto_nul]. rewrite b2z_nul.
  destruct (Ascii.eqb b nul) eqn:Eb; [discriminate|].
  destruct (find_nul d); [discriminate|]. destruct (IH eq_refl) as [H1 H2]. rewrite H1. split; [reflexivity|].
  intros [->|Hin]; [|auto]. now rewrite eqb_refl_ascii in Eb.
Qed.
Lemma find_nul_app d1 d2 : find_nul (d1 ++ d2) =
  match find_nul d1 with Some n => Some n | None => option_map (Nat.add (List.length d1)) (find_nul d2) end.
Proof.
  induction d1 as [|b d1 IH]; cbn [app List.length].
  - unfold find_nul at 2. cbn. destruct (find_nul d2); reflexivity.
  - rewrite !find_nul_cons. destruct (Ascii.eqb b nul); [reflexivity|]. rewrite IH.
    destruct (find_nul d1); [reflexivity|]. destruct (find_nul d2); reflexivity.
Qed.
Lemma find_nul_lt d pos : find_nul d = Some pos -> (pos < List.length d)%nat.
Proof. intros H. apply find_nul_upto in H as [_ [H _]]. apply nth_error_Some. congruence. Qed.
Lemma find_nul_in d : In nul d -> exists pos, find_nul d = Some pos.
Proof. intros H. destruct (find_nul d) eqn:E; eauto. apply find_nul_none in E as [_ E]. contradiction. Qed.
Lemma upto_nul_app d1 d2 : ~ In nul d1 -> upto_nul (d1 ++ d2) = d1 ++ upto_nul d2.
Proof.
  induction d1 as [|b d1 IH]; intros H; [reflexivity|]. cbn [app upto_nul]. rewrite b2z_nul.
  destruct (Ascii.eqb b nul) eqn:Eb.
  - exfalso. apply H. left. now apply Ascii.eqb_eq.
  - rewrite IH; [reflexivity|]. intros Hin. apply H. now right.
Qed.
Lemma upto_nul_app1 d1 d2 : In nul d1 -> upto_nul (d1 ++ d2) = upto_nul d1.
Proof.
  induction d1 as [|b d1 IH]; intros H; [destruct H|]. cbn [app upto_nul]. rewrite b2z_nul.
  destruct (Ascii.eqb b nul) eqn:Eb; [reflexivity|]. f_equal. apply IH. destruct H as [->|H]; [|auto].
  now rewrite eqb_refl_ascii in Eb.
Qed.
Lemma first_nul_unique d i j : first_nul d i -> first_nul d j -> i = j.
Proof.
  assert (A : forall i j, first_nul d i -> first_nul d j -> (i < j)%nat -> False).
  { intros i' j' [H1 _] [_ H2] Hlt. apply H2. rewrite <- (firstn_skipn j' d) in H1.
    rewrite nth_error_app1 in H1.
    - eapply nth_error_In; eauto.
    - rewrite firstn_length. assert (i' < List.length d)%nat; [|lia].
      apply nth_error_Some. rewrite <- (firstn_skipn j' d). congruence. }
  intros Hi Hj. destruct (Nat.lt_trichotomy i j) as [H|[H|H]]; [exfalso; eauto|exact H|exfalso; eauto].
Qed.

Section CString.
  Context (E : penv) (k : kmem) (c : Z) (Inv : pstate -> Prop).
  Hypothesis Hc : 0 < c.
  Hypothesis Hmem : forall s, Inv s -> s_mem s = k.
  Context (lo hi : Z).
  Hypothesis Hread : forall s a, Inv s -> lo <= a -> a + c <= hi ->
    exists s' d, readBytes E a c s = (s', Ok d) /\ stored k a d /\ zlen d = c /\ Inv s'.

  Definition flag (d : list byte) (max : Z) : bool :=
    match find_nul d with Some i => max <=? c * (Z.of_nat i / c + 1) | None => true end.

  Lemma cstring_loop q : forall d a size max acc s fuel,
    zlen d = c * Z.of_nat q -> Inv s -> stored k a d -> lo <= a -> a + zlen d <= hi ->
    (In nul d \/ max - size <= zlen d) -> 0 <= max - size < Z.of_nat fuel -> (0 < q)%nat ->
    exists s', readCString_loop E fuel acc a max size c s
      = (s', Ok (acc ++ firstn (Z.to_nat (max - size)) (upto_nul d), flag d (max - size))).
  Proof.
    induction q as [|q IH]; intros d a size max acc s fuel Hl HI Hst Hlo Hhi Hterm Hfu Hq; [lia|].
    destruct fuel as [|fuel]; [lia|]. cbn [readCString_loop].
    destruct (Hread s a HI Hlo ltac:(nia)) as (s1 & d1 & Hr & Hs1 & Hl1 & HI1).
    unfold mbind. rewrite Hr.
    set (d2 := skipn (Z.to_nat c) d).
    assert (Hd : d = d1 ++ d2).
    { rewrite <- (firstn_skipn (Z.to_nat c) d). f_equal.
      eapply stored_unique; [apply stored_firstn; exact Hst|exact Hs1|]. rewrite zlen_firstn. nia. }
    assert (Hl2 : zlen d2 = c * Z.of_nat q) by (unfold d2; rewrite zlen_skipn; nia).
    assert (Hst2 : stored k (a + c) d2).
    { rewrite Hd in Hst. apply stored_app in Hst as [_ H]. now rewrite Hl1 in H. }
    assert (HL1 : List.length d1 = Z.to_nat c) by (rewrite zlen_nat in Hl1; lia).
    clearbody d2. subst d.
    destruct (find_nul d1) as [pos|] eqn:Ef.
    - pose proof (find_nul_lt _ _ Ef) as Hlt. pose proof (find_nul_upto _ _ Ef) as [Hup [Hnth _]].
      assert (Hin : In nul d1) by (eapply nth_error_In; exact Hnth).
      assert (Hflag : flag (d1 ++ d2) (max - size) = (max <=? size + c)).
      { unfold flag. rewrite find_nul_app, Ef. rewrite Z.div_small by lia.
        apply eq_true_iff_eq. rewrite !Z.leb_le. lia. }
      rewrite upto_nul_app1, Hflag, <- Hup by assumption.
      destruct (max <=? size + c) eqn:Em; zb.
      + rewrite pyslice_to by lia. exists s1. reflexivity.
      + exists s1. unfold ret. rewrite (firstn_all2 (firstn pos d1)); [reflexivity|]. rewrite firstn_length. lia.
    - apply find_nul_none in Ef as [Hup Hnin].
      destruct (max <=? size + c) eqn:Em; zb.
      + rewrite pyslice_to by lia. exists s1. unfold ret. f_equal. f_equal. f_equal.
        * f_equal. rewrite upto_nul_app by assumption. rewrite firstn_app.
          replace (Z.to_nat (max - size) - List.length d1)%nat with O by lia. now rewrite firstn_O, app_nil_r.
        * unfold flag. rewrite find_nul_app.
          destruct (find_nul d1) eqn:E1; [apply find_nul_upto in E1 as [_ [E1 _]]; apply nth_error_In in E1; contradiction|].
          destruct (find_nul d2) as [j|]; cbn [option_map]; [|reflexivity].
          symmetry. apply Z.leb_le. rewrite Nat2Z.inj_add, HL1, Z2Nat.id by lia.
          replace ((c + Z.of_nat j) / c) with (1 + Z.of_nat j / c) by (rewrite <- (Z.mul_1_l c) at 2; rewrite Z.div_add_l; lia).
          pose proof (Z.div_pos (Z.of_nat j) c). nia.
      + destruct q as [|q].
        { exfalso. destruct d2; [|rewrite zlen_cons in Hl2; pose proof (zlen_nonneg d2); lia].
          rewrite app_nil_r in *. destruct Hterm as [H|H]; [contradiction|]. lia. }
        rewrite zlen_app in Hhi, Hterm.
        destruct (IH d2 (a + c) (size + c) max (acc ++ d1) s1 fuel) as [s' Hrun]; auto; try lia.
        * destruct Hterm as [H|H]; [|right; lia]. apply in_app_or in H. destruct H; [contradiction|now left].
        * exists s'. rewrite Hrun. f_equal. f_equal. f_equal.
          -- rewrite upto_nul_app by assumption. rewrite <- app_assoc. f_equal.
             rewrite firstn_app, HL1. rewrite (firstn_all2 d1) by lia. f_equal. f_equal. lia.
          -- unfold flag. rewrite find_nul_app.
             destruct (find_nul d1) eqn:E1; [apply find_nul_upto in E1 as [_ [E1 _]]; apply nth_error_In in E1; contradiction|].
             destruct (find_nul d2) as [j|]; cbn [option_map]; [|reflexivity].
             rewrite Nat2Z.inj_add, HL1, Z2Nat.id by lia.
             replace ((c + Z.of_nat j) / c) with (1 + Z.of_nat j / c) by (rewrite <- (Z.mul_1_l c) at 2; rewrite Z.div_add_l; lia).
             apply eq_true_iff_eq. rewrite !Z.leb_le. lia.
  Qed.
End CString.

Section Linux3.
  Context (E : penv).
  Let p := e_p E.
  Hypothesis Hos : p_os p = Linux.
  Hypothesis Hpid : good_pid E.
  Hypothesis Hf : faithful E.
  Hypothesis Hnf : never_fails E.
  Hypothesis Ho : open_ok E.

  Lemma readCString_linux a max c q d s :
    0 < c -> 0 <= max -> (0 < q)%nat -> zlen d = c * Z.of_nat q ->
    stored (s_mem s) a d -> words_mapped p (s_mem s) a (zlen d) ->
    in_space E a (zlen d) -> can_read s (a + zlen d) ->
    (In nul d \/ max <= zlen d) ->
    exists s', readCString E a max c s = (s', Ok (firstn (Z.to_nat max) (upto_nul d), flag c d max)).
  Proof.
    intros Hc Hmax Hq Hl Hst Hwm Hsp Hcr Hterm. unfold readCString.
    set (Inv := fun s0 => s_mem s0 = s_mem s /\ can_read s0 (a + zlen d)).
    assert (Hread : forall s0 a0, Inv s0 -> a <= a0 -> a0 + c <= a + zlen d ->
      exists s' d', readBytes E a0 c s0 = (s', Ok d') /\ stored (s_mem s) a0 d' /\ zlen d' = c /\ Inv s').
    { intros s0 a0 [Hm0 Hc0] Hlo Hhi.
      destruct (readBytes_good E Hos Hpid Hf a0 c s0 Hnf Ho Hc) as (s1 & d1 & Hr & Hm1 & Hst1 & Hl1 & Hcr1).
      + eapply in_space_sub; [exact Hsp|lia|lia].
      + rewrite Hm0. intros x w Hx. apply Hwm. lia.
      + destruct Hc0 as [H|[H1 H2]]; [now left|right]. split; [exact H1|lia].
      + exists s1, d1. rewrite Hm0 in *. repeat split; auto. }
    pose proof (cstring_loop E (s_mem s) c Inv Hc a (a + zlen d) Hread q d a 0 max [] s (S (Z.to_nat max))) as H.
    rewrite Z.sub_0_r in H. destruct H as [s' H]; auto; try lia; [split; auto|].
    exists s'. exact H.
  Qed.

  Lemma flag_false c d max : 0 < c ->
    (flag c d max = false <-> exists i, first_nul d i /\ c * (Z.of_nat i / c + 1) < max).
  Proof.
    intros Hc. unfold flag. destruct (find_nul d) as [i|] eqn:Ef.
    - rewrite Z.leb_gt. pose proof (find_nul_upto _ _ Ef) as [_ Hfirst]. split; [eauto|].
      intros [j [Hj H]]. now rewrite (first_nul_unique d i j Hfirst Hj).
    - split; [discriminate|]. intros [i [[H _] _]]. apply find_nul_none in Ef as [_ Ef].
      apply nth_error_In in H. contradiction.
  Qed.

  Lemma readStruct_linux a n s :
    0 < n -> in_space E a n -> words_mapped p (s_mem s) a n -> can_read s (a + n) ->
    exists s' d, readStruct E a n s = (s', Ok d) /\ stored (s_mem s) a d /\ zlen d = n.
  Proof.
    intros Hn Hsp Hm Hc.
    destruct (readBytes_good E Hos Hpid Hf a n s Hnf Ho Hn Hsp Hm Hc) as (s1 & d & Hr & _ & Hst & Hl & _).
    exists s1, d. unfold readStruct, mbind. rewrite Hr, Hl, Z.ltb_irrefl. split; [|auto].
    unfold ret. rewrite pyslice_to by lia. rewrite firstn_all2; [reflexivity|]. rewrite zlen_nat in Hl. lia.
  Qed.
  Lemma readArray_linux a size count s :
    0 < size -> 0 < count -> in_space E a (size * count) ->
    words_mapped p (s_mem s) a (size * count) -> can_read s (a + size * count) ->
    exists s' els, readArray E a size count s = (s', Ok els) /\ zlen els = count /\
      forall i e, nth_error els i = Some e -> stored (s_mem s) (a + Z.of_nat i * size) e /\ zlen e = size.
  Proof.
    intros Hs Hcn Hsp Hm Hc. assert (Hn : 0 < size * count) by nia.
    destruct (readBytes_good E Hos Hpid Hf a (size * count) s Hnf Ho Hn Hsp Hm Hc) as (s1 & d & Hr & _ & Hst & Hl & _).
    eexists s1, _. unfold readArray, mbind. rewrite Hr, Hl, Z.ltb_irrefl. split; [reflexivity|].
    assert (Hzr : List.length (zrange (Z.to_nat count)) = Z.to_nat count) by (unfold zrange; now rewrite map_length, seq_length).
    split; [rewrite zlen_nat, map_length, Hzr; lia|].
    intros i e He. rewrite nth_error_map in He.
    destruct (nth_error (zrange (Z.to_nat count)) i) as [z|] eqn:Ez; [|discriminate].
    cbn in He. injection He as <-.
    assert (Hi : (i < Z.to_nat count)%nat) by (rewrite <- Hzr; apply nth_error_Some; congruence).
    assert (z = Z.of_nat i) as ->.
    { unfold zrange in Ez. rewrite nth_error_map in Ez.
      destruct (nth_error (seq 0 (Z.to_nat count)) i) as [m|] eqn:Em; [|discriminate]. cbn in Ez. injection Ez as <-.
      apply (nth_error_nth _ _ O) in Em. rewrite seq_nth in Em by assumption. lia. }
    rewrite pyslice_mid by nia. replace ((Z.of_nat i + 1) * size - Z.of_nat i * size) with size by lia.
    split.
    - apply stored_firstn. replace (a + Z.of_nat i * size) with (a + Z.of_nat (Z.to_nat (Z.of_nat i * size))) by nia.
      apply stored_skipn; [|exact Hst]. rewrite zlen_nat in Hl. nia.
    - rewrite zlen_firstn, zlen_skipn, Hl. nia.
  Qed.

  (** Successful write followed by a read *)
  Lemma write_then_read a d s s' :
    in_space E a (zlen d) -> 0 < zlen d -> words_mapped p (s_mem s) a (zlen d) ->
    writeBytes E a d s = (s', Ok tt) -> can_read s' (a + zlen d) ->
    exists s'', readBytes E a (zlen d) s' = (s'', Ok d).
  Proof.
    intros Hsp Hpos Hm Hw Hc.
    destruct (writeBytes_spec E Hos Hpid Hf a d s s' (Ok tt) Hsp Hw) as (m & _ & Hwr & Hall & _).
    rewrite (Hall eq_refl), firstn_all in Hwr.
    destruct (readBytes_good E Hos Hpid Hf a (zlen d) s' Hnf Ho Hpos Hsp) as (s2 & d2 & Hr & _ & Hst & Hl & _); auto.
    - intros x w Hx Hxw y Hy. eapply written_mapped; [exact Hwr|]. eapply Hm; eauto.
    - exists s2. rewrite Hr. do 2 f_equal. eapply stored_unique; [exact Hst|eapply written_stored; exact Hwr|exact Hl].
  Qed.
End Linux3.

(** ** BSD: PT_IO *)
Lemma k_prefix_full k n : forall a bs, k_bytes k a n = Some bs -> k_prefix k a n = bs.
Proof.
  induction n as [|n IH]; intros a bs H; cbn in *; [now injection H|].
  destruct (k_byte k a); [|discriminate]. destruct (k_bytes k (a + 1) n) eqn:Ek; [|discriminate].
  injection H as <-. f_equal. now apply IH.
Qed.
Lemma readBytes_bsd E a n s :
  p_os (e_p E) <> Linux -> 0 <= n -> 0 <= a < 2 ^ (8 * word_size (e_p E)) -> mapped (s_mem s) a n ->
  exists d, readBytes E a n s = (s, Ok d) /\ stored (s_mem s) a d /\ zlen d = n.
Proof.
  intros Hos Hn Ha Hm. destruct (mapped_stored _ _ _ Hn Hm) as (d & Hst & Hl).
  exists d. split; [|auto]. unfold readBytes.
  assert (has_ptrace_io (e_p E) = true) as -> by (unfold has_ptrace_io, running_bsd, running_linux; now destruct (p_os (e_p E))).
  unfold readBytes_io. replace (n <? 0) with false by blia.
  rewrite truncate_word_small by exact Ha.
  assert (Hk : k_bytes (s_mem s) a (Z.to_nat n) = Some d) by (apply k_bytes_spec; split; [auto|rewrite zlen_nat in Hl; lia]).
  rewrite (k_prefix_full _ _ _ _ Hk).
  assert (HL : List.length d = Z.to_nat n) by (rewrite zlen_nat in Hl; lia). rewrite HL, Nat.sub_diag. cbn [repeat].
  rewrite app_nil_r. destruct (n =? 0) eqn:E0; zb.
  - now rewrite andb_false_r.
  - replace (Z.to_nat n =? 0)%nat with false; [reflexivity|]. symmetry. apply Nat.eqb_neq. lia.
Qed.

Lemma io_write_spec bytes : forall k a k' n, io_write k a bytes = (k', n) ->
  (n <= List.length bytes)%nat /\ written k k' a (firstn n bytes) /\
  ((forall x, a <= x < a + zlen bytes -> k_byte k x <> None /\ k_pokable k x = true) -> n = List.length bytes).
Proof.
  induction bytes as [|b bs IH]; intros k a k' n H; cbn [io_write] in H.
  - injection H as <- <-. repeat split; auto. apply written_nil.
  - destruct (k_byte k a) as [b0|] eqn:Eb.
    2:{ injection H as <- <-. repeat split; [cbn; lia|apply written_nil|].
        intros Hx. rewrite zlen_cons in Hx. pose proof (zlen_nonneg bs). destruct (Hx a); [lia|congruence]. }
    destruct (k_pokable k a) eqn:Ep.
    2:{ injection H as <- <-. repeat split; [cbn; lia|apply written_nil|].
        intros Hx. rewrite zlen_cons in Hx. pose proof (zlen_nonneg bs). destruct (Hx a); [lia|congruence]. }
    set (k1 := KMem (fun x => if x =? a then Some b else k_byte k x) (k_pokable k)) in *.
    destruct (io_write k1 (a + 1) bs) as [k2 m] eqn:Ei. injection H as <- <-.
    destruct (IH _ _ _ _ Ei) as (Hm & Hw & Hall).
    assert (Hw1 : written k k1 a [b]).
    { split; [|reflexivity]. intros x. cbn [k_byte k1]. destruct (x =? a) eqn:Ex; zb.
      - subst x. replace (a <=? a) with true by blia. now rewrite Z.sub_diag.
      - destruct (a <=? x) eqn:El; [|reflexivity]. zb.
        assert (nth_error [b] (Z.to_nat (x - a)) = None) as -> by (apply nth_error_None; cbn; lia). reflexivity. }
    split; [cbn; lia|]. split.
    + cbn [firstn]. change (b :: firstn m bs) with ([b] ++ firstn m bs). eapply written_app; [exact Hw1|exact Hw].
    + intros Hx. cbn. f_equal. apply Hall. intros x Hxr. rewrite zlen_cons in Hx. destruct (Hx x) as [A B]; [lia|].
      split; [eapply written_mapped; eauto|exact B].
Qed.
Lemma writeBytes_bsd E a d s s' r :
  p_os (e_p E) <> Linux -> 0 <= a < 2 ^ (8 * word_size (e_p E)) -> writeBytes E a d s = (s', r) ->
  exists m, (m <= List.length d)%nat /\ written (s_mem s) (s_mem s') a (firstn m d) /\
    ((forall x, a <= x < a + zlen d -> k_byte (s_mem s) x <> None /\ k_pokable (s_mem s) x = true) ->
     m = List.length d /\ r = Ok tt).
Proof.
  intros Hos Ha H. unfold writeBytes in H.
  assert (has_ptrace_io (e_p E) = true) as Hio by (unfold has_ptrace_io, running_bsd, running_linux; now destruct (p_os (e_p E))).
  rewrite Hio in H. unfold writeBytes_io in H. rewrite truncate_word_small in H by exact Ha.
  destruct (io_write (s_mem s) a d) as [k n] eqn:Ei. destruct (io_write_spec _ _ _ _ _ Ei) as (Hn & Hw & Hall).
  destruct ((n =? 0)%nat && negb (zlen d =? 0)) eqn:Eb.
  - injection H as <- <-. exists O. split; [lia|]. split; [apply written_nil|].
    intros Hx. apply Hall in Hx. apply andb_prop in Eb as [E1 E2]. apply Nat.eqb_eq in E1.
    destruct d; [discriminate|]. cbn in Hx. lia.
  - injection H as <- <-. exists n. split; [exact Hn|]. split; [exact Hw|]. intros Hx. split; [now apply Hall|reflexivity].
Qed.
