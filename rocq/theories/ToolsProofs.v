(** * ToolsProofs: lemmas about ToolsModel. *)
From Coq Require Import ZArith List Ascii String Bool Lia.
From Verif Require Import PyBase PyFacts Platform IntModel IntProofs ToolsModel ToolsSpec.
Import ListNotations.
Open Scope Z_scope.

Lemma land_zero_iff v m : Z.land v m = 0 <-> forall b, 0 <= b -> Z.testbit v b && Z.testbit m b = false.
Proof.
  split.
  - intros H b Hb. rewrite <- Z.land_spec, H. apply Z.bits_0.
  - intros H. apply Z.bits_inj'. intros b Hb. rewrite Z.land_spec, Z.bits_0. auto.
Qed.

Lemma land_nonzero_ex v m : Z.land v m <> 0 -> exists b, 0 <= b /\ Z.testbit v b = true /\ Z.testbit m b = true.
Proof.
  intros H. set (x := Z.land v m) in *.
  assert (exists b, 0 <= b /\ Z.testbit x b = true) as [b [Hb Ht]].
  { destruct (Z_lt_le_dec x 0) as [Hn|Hp].
    - exists (Z.succ (Z.log2 (Z.succ (- x)))). destruct (Z.eq_dec x (-1)) as [->|].
      + split; [simpl; lia|]. rewrite Z.bits_m1; [reflexivity|simpl; lia].
      + split; [pose proof (Z.log2_nonneg (Z.succ (- x))); lia|].
        rewrite Z.bits_iff_neg in Hn by (instantiate (1 := Z.succ (Z.log2 (Z.succ (- x)))); 
          rewrite Z.abs_neq by lia;
          pose proof (Z.log2_le_mono (- x) (Z.succ (- x)) ltac:(lia));
          pose proof (Z.log2_spec (- x) ltac:(lia)) as [_ Hs];
          apply Z.lt_succ_r; assumption).
        exact Hn.
    - exists (Z.log2 x). split; [apply Z.log2_nonneg|]. apply Z.bit_log2. lia. }
  exists b. unfold x in Ht. rewrite Z.land_spec in Ht. apply andb_prop in Ht. tauto.
Qed.

Definition resid (value : Z) (earlier : list Z) (r : Z) : Prop :=
  forall b, 0 <= b -> (Z.testbit r b = true <-> Z.testbit value b = true /\ ~ covered earlier b).

Lemma covered_cons m l b : covered (m :: l) b <-> Z.testbit m b = true \/ covered l b.
Proof.
  unfold covered. split.
  - intros [x [[->|Hi] Ht]]; eauto.
  - intros [H|[x [Hi Ht]]]; [exists m|exists x]; simpl; auto.
Qed.
Lemma covered_app l1 l2 b : covered (l1 ++ l2) b <-> covered l1 b \/ covered l2 b.
Proof.
  unfold covered. split.
  - intros [x [Hi Ht]]. apply in_app_iff in Hi as [Hi|Hi]; eauto.
  - intros [[x [Hi Ht]]|[x [Hi Ht]]]; exists x; rewrite in_app_iff; auto.
Qed.

Lemma resid_fresh value earlier r m :
  resid value earlier r -> (Z.land r m <> 0 <-> fresh_bit value m earlier).
Proof.
  intros HR. split.
  - intros H. apply land_nonzero_ex in H as [b [Hb [H1 H2]]]. apply HR in H1 as [H1 H3]; auto.
    exists b. auto.
  - intros [b [Hb [H1 [H2 H3]]]] H0. rewrite land_zero_iff in H0. specialize (H0 b Hb).
    rewrite H2 in H0. rewrite (proj2 (HR b Hb) (conj H1 H3)) in H0. easy.
Qed.

Lemma testbit_dec_not v b : Z.testbit v b = false <-> Z.testbit v b <> true.
Proof. destruct (Z.testbit v b); split; congruence. Qed.

Lemma readBits_loop_spec table : forall value earlier r bitset,
  resid value earlier r ->
  exists names rest, readBits_loop r table bitset = (rest, bitset ++ names) /\
    named value earlier table names /\ resid value (rev (map fst table) ++ earlier) rest.
Proof.
  induction table as [|[m n] table IH]; intros value earlier r bitset HR.
  - exists [], r. simpl. rewrite app_nil_r. split; auto. split; [constructor|auto].
  - cbn [readBits_loop map fst rev]. destruct (Z.eqb_spec (Z.land r m) 0) as [E|E].
    + destruct (IH value (m :: earlier) r bitset) as [names [rest [H1 [H2 H3]]]].
      { intros b Hb. rewrite (HR b Hb), covered_cons. split; [|tauto].
        intros [Hv Hc]. split; auto. intros [Hm|Hc2]; [|tauto].
        rewrite land_zero_iff in E. specialize (E b Hb). rewrite Hm in E.
        rewrite (proj2 (HR b Hb) (conj Hv Hc)) in E. easy. }
      exists names, rest. split; auto. split.
      * apply named_no; auto. rewrite <- (resid_fresh value earlier r m HR). auto.
      * rewrite <- app_assoc. exact H3.
    + destruct (IH value (m :: earlier) (Z.land r (Z.lnot m)) (bitset ++ [n])) as [names [rest [H1 [H2 H3]]]].
      { intros b Hb. rewrite Z.land_spec, Z.lnot_spec, andb_true_iff, negb_true_iff by auto.
        rewrite (HR b Hb), covered_cons, testbit_dec_not. tauto. }
      exists (n :: names), rest. split; [rewrite H1, <- app_assoc; reflexivity|]. split.
      * apply named_yes; auto. now apply (resid_fresh value earlier r m HR).
      * rewrite <- app_assoc. exact H3.
Qed.

Lemma resid_start v : resid v [] v.
Proof. intros b Hb. split; [|tauto]. intros H. split; auto. intros [x [[] _]]. Qed.

Lemma readBits_spec value table : flag_display value table (readBits value table).
Proof.
  unfold readBits.
  destruct (readBits_loop_spec table value [] value [] (resid_start value)) as [names [rest [H1 [H2 H3]]]].
  rewrite H1. simpl app. exists names, rest. split; auto. split.
  - intros b Hb. rewrite (H3 b Hb), app_nil_r. unfold covered.
    split; intros [Hv Hc]; split; auto; intros [x [Hi Ht]]; apply Hc; exists x; split; auto.
    + now rewrite <- in_rev.
    + now rewrite <- in_rev in Hi.
  - destruct (rest =? 0); [now rewrite app_nil_r|reflexivity].
Qed.

Lemma named_fun value earlier table n1 : named value earlier table n1 ->
  forall n2, named value earlier table n2 -> n1 = n2.
Proof.
  induction 1; intros n2 H2; inversion H2; subst; auto; try contradiction.
  f_equal; auto.
Qed.
Lemma unnamed_fun value table r1 r2 : unnamed value table r1 -> unnamed value table r2 -> r1 = r2.
Proof.
  intros H1 H2. apply Z.bits_inj'. intros b Hb. apply eq_iff_eq_true. rewrite (H1 b Hb), (H2 b Hb). tauto.
Qed.
Lemma flag_display_fun value table s1 s2 :
  flag_display value table s1 -> flag_display value table s2 -> s1 = s2.
Proof.
  intros [n1 [r1 [A1 [B1 ->]]]] [n2 [r2 [A2 [B2 ->]]]].
  rewrite (named_fun _ _ _ _ A1 _ A2), (unnamed_fun _ _ _ _ B1 B2). reflexivity.
Qed.

(** a displayed name is in the table and justified *)
Lemma named_In value earlier table names : named value earlier table names ->
  forall n, In n names -> exists m, In (m, n) table /\ Z.land value m <> 0.
Proof.
  induction 1 as [e|e m nm tb ns Hf Hn IH|e m nm tb ns Hf Hn IH]; intros n Hi; [easy| |].
  - destruct Hi as [<-|Hi].
    + exists m. split; [now left|]. intros H0. destruct Hf as [b [Hb [H1 [H2 _]]]].
      rewrite land_zero_iff in H0. specialize (H0 b Hb). rewrite H1, H2 in H0. easy.
    + apply IH in Hi as [m' [Hi Hl]]. exists m'. split; [now right|auto].
  - apply IH in Hi as [m' [Hi Hl]]. exists m'. split; [now right|auto].
Qed.

(** with a simple table, a name is displayed iff its bit is set *)
Definition disjoint_from (earlier : list Z) (m : Z) : Prop :=
  forall b, 0 <= b -> Z.testbit m b = true -> ~ covered earlier b.

Lemma flag_bits m k : m = 2 ^ k -> 0 <= k -> forall b, 0 <= b -> (Z.testbit m b = true <-> b = k).
Proof.
  intros -> Hk b Hb. rewrite Z.pow2_bits_eqb by auto. rewrite Z.eqb_eq. split; auto.
Qed.

Lemma simple_named value table : Forall is_flag (map fst table) -> NoDup (map fst table) ->
  forall earlier names,
  named value earlier table names -> (forall m, In m (map fst table) -> disjoint_from earlier m) ->
  names = map snd (filter (fun e => negb (Z.land value (fst e) =? 0)) table).
Proof.
  induction table as [|[m n] table IH]; intros HF HN earlier names H HD.
  - now inversion H.
  - cbn [map fst] in *. apply Forall_cons_iff in HF as [Hm HF]. inversion HN as [|? ? Hni HN']; subst.
    assert (HD' : forall m', In m' (map fst table) -> disjoint_from (m :: earlier) m').
    { intros m' Hi b Hb Ht. rewrite covered_cons. intros [Hc|Hc].
      - destruct Hm as [k [Hk Hm]].
        rewrite Forall_forall in HF. destruct (HF m' Hi) as [k' [Hk' Hm']].
        rewrite (flag_bits m k) in Hc by auto. rewrite (flag_bits m' k') in Ht by auto. subst. tauto.
      - eapply HD; eauto. now right. }
    assert (HE : fresh_bit value m earlier <-> Z.land value m <> 0).
    { split.
      - intros [b [Hb [H1 [H2 _]]]] H0. rewrite land_zero_iff in H0. specialize (H0 b Hb).
        rewrite H1, H2 in H0. easy.
      - intros H0. apply land_nonzero_ex in H0 as [b [Hb [H1 H2]]]. exists b. repeat split; auto.
        eapply HD; eauto. now left. }
    cbn [filter fst]. inversion H; subst.
    + apply HE in H5. destruct (Z.eqb_spec (Z.land value m) 0); [easy|]. cbn [negb map snd]. f_equal.
      eapply IH; eauto.
    + destruct (Z.eqb_spec (Z.land value m) 0) as [E|E]; [|exfalso; apply H5; now apply HE].
      cbn [negb]. eapply IH; eauto.
Qed.

Lemma simple_display value table names :
  simple_table table -> named value [] table names ->
  names = map snd (filter (fun e => negb (Z.land value (fst e) =? 0)) table).
Proof.
  intros [H1 H2] H. eapply simple_named; eauto. intros m _ b _ _ [x [[] _]].
Qed.

Lemma readBits_simple value table : simple_table table ->
  exists rest, unnamed value table rest /\
  readBits value table = map snd (filter (fun e => negb (Z.land value (fst e) =? 0)) table)
     ++ (if rest =? 0 then [] else [str_int rest]) /\
  value = fold_right Z.lor rest (map fst (filter (fun e => negb (Z.land value (fst e) =? 0)) table)).
Proof.
  intros HS. destruct (readBits_spec value table) as [names [rest [H1 [H2 H3]]]].
  exists rest. split; auto. rewrite (simple_display _ _ _ HS H1) in H3. split; auto.
  apply Z.bits_inj'. intros b Hb. apply eq_iff_eq_true.
  assert (HO : forall l r, Z.testbit (fold_right Z.lor r l) b = true <-> covered l b \/ Z.testbit r b = true).
  { induction l as [|x l IH]; intros r; cbn [fold_right].
    - split; [tauto|]. intros [[x [[] _]]|]; auto.
    - rewrite Z.lor_spec, orb_true_iff, IH, covered_cons. tauto. }
  rewrite HO, (H2 b Hb).
  destruct HS as [HF HN]. rewrite Forall_forall in HF.
  split.
  - intros Hv. destruct (existsb (fun m => Z.testbit m b) (map fst table)) eqn:E.
    + left. apply existsb_exists in E as [m [Hi Ht]]. apply in_map_iff in Hi as [[m' n] [<- Hi]].
      exists m'. split; auto. apply in_map_iff. exists (m', n). split; auto. apply filter_In. split; auto.
      simpl in *. apply negb_true_iff, Z.eqb_neq. intros H0. rewrite land_zero_iff in H0.
      specialize (H0 b Hb). now rewrite Hv, Ht in H0.
    + right. split; auto. intros [m [Hi Ht]]. assert (existsb (fun m => Z.testbit m b) (map fst table) = true).
      { apply existsb_exists. eauto. } congruence.
  - intros [[m [Hi Ht]]|[Hv _]]; auto. apply in_map_iff in Hi as [[m' n] [<- Hi]].
    apply filter_In in Hi as [Hi Hl]. simpl in *. apply negb_true_iff, Z.eqb_neq in Hl.
    apply land_nonzero_ex in Hl as [b' [Hb' [Hv' Ht']]].
    destruct (HF m') as [k [Hk Hm]]. { apply in_map_iff. now exists (m', n). }
    rewrite (flag_bits m' k) in Ht, Ht' by auto. now subst.
Qed.

Lemma readBits_zero table : readBits 0 table = [].
Proof.
  unfold readBits. assert (H : forall acc, readBits_loop 0 table acc = (0, acc)).
  { induction table as [|[m n] t IH]; intros acc; cbn [readBits_loop]; auto.
    rewrite Z.land_0_l, Z.eqb_refl. apply IH. }
  now rewrite H.
Qed.

Lemma readBits_nonempty value table : value <> 0 -> readBits value table <> [].
Proof.
  intros Hv H. destruct (readBits_spec value table) as [names [rest [H1 [H2 H3]]]].
  rewrite H in H3. symmetry in H3. apply app_eq_nil in H3 as [-> H3].
  destruct (Z.eqb_spec rest 0) as [->|]; [|easy].
  apply Hv. apply Z.bits_inj'. intros b Hb. rewrite Z.bits_0.
  destruct (Z.testbit value b) eqn:Ev; auto. exfalso.
  destruct (existsb (fun m => Z.testbit m b) (map fst table)) eqn:E.
  - assert (HC : forall earlier, named value earlier table [] -> ~ covered earlier b -> ~ covered (map fst table) b).
    { clear - Ev Hb. induction table as [|[m n] t IH]; intros e Hn Hc.
      - intros [x [[] _]].
      - inversion Hn; subst. cbn [map fst]. rewrite covered_cons. intros [Hm|Ht].
        + apply H4. exists b. auto.
        + revert Ht. eapply IH; eauto. rewrite covered_cons. intros [Hm|He]; [|tauto].
          apply H4. exists b. auto. }
    apply (HC []) in H1; [|intros [x [[] _]]]. apply H1.
    apply existsb_exists in E as [m [Hi Ht]]. exists m. auto.
  - assert (Z.testbit 0 b = true) as Hc.
    { apply (H2 b Hb). split; auto. intros [m [Hi Ht]].
      assert (existsb (fun m => Z.testbit m b) (map fst table) = true) by (apply existsb_exists; eauto). congruence. }
    rewrite Z.bits_0 in Hc. easy.
Qed.

Lemma formatBits_nonzero value table e fmt : value <> 0 ->
  formatBits value table e fmt =
    T "<" ++ join (T "|") (readBits value table) ++ T "> (" ++ fmt value ++ T ")".
Proof.
  intros Hv. unfold formatBits. pose proof (readBits_nonempty value table Hv).
  destruct (readBits value table); [easy|]. destruct (Z.eqb_spec value 0); easy.
Qed.
Lemma formatBits_zero table e fmt :
  formatBits 0 table e fmt = match e with Some (c :: s) => c :: s | _ => T "0" end.
Proof. unfold formatBits. rewrite readBits_zero. reflexivity. Qed.

(** ** open flags *)
Lemma readBits_tables_head value :
  (match readBits value OPEN_FLAGS_BITMASK with
   | f :: _ => text_eqb f (T "O_WRONLY") || text_eqb f (T "O_RDWR")
   | [] => false
   end) = Z.testbit value 0 || Z.testbit value 1.
Proof.
  destruct (readBits_spec value OPEN_FLAGS_BITMASK) as [names [rest [H1 [_ H3]]]].
  unfold OPEN_FLAGS_BITMASK in H1.
  inversion H1 as [|e m n t ns Hf Hn E1 E2 E3|e m n t ns Hf Hn E1 E2 E3]; subst.
  - rewrite H3. cbn [app]. rewrite text_eqb_refl. cbn [orb].
    destruct Hf as [b [Hb [Hv [Hm _]]]]. apply (flag_bits 1 0) in Hm; auto; try lia. subst b. now rewrite Hv.
  - assert (H0 : Z.testbit value 0 = false).
    { destruct (Z.testbit value 0) eqn:E; auto. exfalso. apply Hf. exists 0. repeat split; auto; try lia.
      intros [x [[] _]]. }
    rewrite H0. cbn [orb].
    inversion Hn as [|e m' n' t' ns' Hf' Hn' E1 E2 E3|e m' n' t' ns' Hf' Hn' E1 E2 E3]; subst.
    + rewrite H3. cbn [app].
      destruct Hf' as [b [Hb [Hv [Hm _]]]]. apply (flag_bits 2 1) in Hm; auto; try lia. subst b. rewrite Hv.
      reflexivity.
    + assert (HV1 : Z.testbit value 1 = false).
      { destruct (Z.testbit value 1) eqn:E; auto. exfalso. apply Hf'. exists 1. repeat split; auto; try lia.
        rewrite covered_cons. intros [H|[x [[] _]]]. now apply (flag_bits 1 0) in H; lia. }
      rewrite HV1. rewrite H3.
      assert (HI : forall x, In x names -> In x (map snd (tl (tl OPEN_FLAGS_BITMASK)))).
      { intros x Hx. apply (named_In _ _ _ _ Hn') in Hx as [m [Hm _]]. apply in_map_iff. exists (m, x). auto. }
      destruct names as [|x names].
      * cbn [app]. destruct (rest =? 0); auto.
        assert (HNE : forall y, str_int rest = T "O_" ++ y -> False).
        { intros y E. unfold str_int, fmt_int in E. destruct (Z.ltb_spec rest 0); [easy|].
          pose proof (digits_Forall (fun c => is_digit c = true) 10 rest) as HD.
          rewrite E in HD. cbn [T list_ascii_of_string app] in HD.
          specialize (HD ltac:(lia)). 
          assert (HP : forall d, 0 <= d < 10 -> is_digit (digit_char d) = true).
          { apply (zrange_Forall (fun d => is_digit (digit_char d) = true) 10). repeat constructor. }
          specialize (HD HP ltac:(lia)). inversion HD as [|? ? Hc _]; subst. vm_compute in Hc. easy. }
        assert (H4 : text_eqb (str_int rest) (T "O_WRONLY") = false).
        { apply text_eqb_neq. intros E. apply (HNE (T "WRONLY")). exact E. }
        assert (H5 : text_eqb (str_int rest) (T "O_RDWR") = false).
        { apply text_eqb_neq. intros E. apply (HNE (T "RDWR")). exact E. }
        now rewrite H4, H5.
      * cbn [app]. specialize (HI x (or_introl eq_refl)).
        assert (HA : Forall (fun x => text_eqb x (T "O_WRONLY") || text_eqb x (T "O_RDWR") = false)
                       (map snd (tl (tl OPEN_FLAGS_BITMASK)))) by (repeat constructor).
        rewrite Forall_forall in HA. now apply HA.
Qed.

Definition access_prefix (value : Z) : list text :=
  if Z.testbit value 0 || Z.testbit value 1 then [] else [T "O_RDONLY"].

Lemma formatOpenFlags_spec value :
  formatOpenFlags value =
  join (T "|") (access_prefix value ++ readBits value OPEN_FLAGS_BITMASK) ++
  (if value =? 0 then [] else T " (" ++ py_oct value ++ T ")").
Proof.
  unfold formatOpenFlags, access_prefix. pose proof (readBits_tables_head value) as H.
  destruct (readBits value OPEN_FLAGS_BITMASK) as [|f fs].
  - rewrite <- H. cbn [app]. destruct (value =? 0); [now rewrite app_nil_r|reflexivity].
  - rewrite <- H. destruct (text_eqb f (T "O_WRONLY") || text_eqb f (T "O_RDWR")); cbn [app];
      (destruct (value =? 0); [now rewrite app_nil_r|reflexivity]).
Qed.

Lemma formatOpenMode_spec value :
  formatOpenMode value = if value =? 0 then [] else py_oct value.
Proof.
  unfold formatOpenMode. destruct (Z.eqb_spec value 0) as [->|]; auto.
Qed.

Lemma low_byte v : Z.land v 0xFF = v mod 256.
Proof. exact (land_mask v 8 ltac:(lia)). Qed.

Lemma formatCloneFlags_spec signame flags :
  formatCloneFlags signame flags =
  if flags =? 0 then T "0"
  else T "<" ++ join (T "|") ((if flags mod 256 =? 0 then [] else [signame (flags mod 256)])
                               ++ readBits flags CLONE_FLAGS_BITMASK)
       ++ T "> (" ++ str_int flags ++ T ")".
Proof.
  unfold formatCloneFlags. rewrite low_byte. destruct (Z.eqb_spec flags 0) as [->|Hn].
  - rewrite readBits_zero. reflexivity.
  - pose proof (readBits_nonempty flags CLONE_FLAGS_BITMASK Hn).
    destruct (flags mod 256 =? 0); cbn [app].
    + destruct (readBits flags CLONE_FLAGS_BITMASK); easy.
    + reflexivity.
Qed.

Lemma formatDirFd_spec v s :
  IntSpec.signed_of 32 v s ->
  formatDirFd v = if s =? -100 then T "AT_FDCWD" else str_int s.
Proof.
  intros H. unfold formatDirFd, uint2int, AT_FDCWD.
  assert (uint2int32 v = s) as ->. { eapply (signed_unique 32); [lia|apply uint2int32_spec|auto]. }
  reflexivity.
Qed.

Ltac flags_simple :=
  split; [repeat (apply Forall_cons; [match goal with |- is_flag ?m =>
            exists (Z.log2 m); split; [vm_compute; discriminate | reflexivity] end|]); apply Forall_nil
         | repeat (apply NoDup_cons; [simpl; intuition discriminate|]); apply NoDup_nil].

Lemma mmap_simple : simple_table MMAP_PROT_BITMASK.
Proof. unfold MMAP_PROT_BITMASK; cbn [map fst]. flags_simple. Qed.
Lemma access_simple : simple_table ACCESS_MODE_BITMASK.
Proof. unfold ACCESS_MODE_BITMASK; cbn [map fst]. flags_simple. Qed.
Lemma mode_simple : simple_table OPEN_MODE_BITMASK.
Proof. unfold OPEN_MODE_BITMASK; cbn [map fst]. flags_simple. Qed.
Lemma clone_simple : simple_table CLONE_FLAGS_BITMASK.
Proof. unfold CLONE_FLAGS_BITMASK; cbn [map fst]. flags_simple. Qed.
Lemma open_simple : simple_table (removelast OPEN_FLAGS_BITMASK).
Proof. unfold OPEN_FLAGS_BITMASK; cbn [removelast map fst]. flags_simple. Qed.

(** ** minmax *)
Lemma minmax_nearest lo v hi : lo <= hi -> nearest lo v hi (minmax lo v hi).
Proof.
  unfold nearest, minmax. intros H. split; [lia|]. intros x Hx.
  destruct (Z.max_spec lo v) as [[? ->]|[? ->]]; [destruct (Z.min_spec v hi) as [[? ->]|[? ->]]|
    destruct (Z.min_spec lo hi) as [[? ->]|[? ->]]]; lia.
Qed.
Lemma nearest_unique lo v hi a b : nearest lo v hi a -> nearest lo v hi b -> a = b.
Proof.
  intros [H1 H2] [H3 H4]. destruct (Z_le_dec lo v), (Z_le_dec v hi).
  - specialize (H2 v ltac:(lia)). specialize (H4 v ltac:(lia)). lia.
  - specialize (H2 b H3). specialize (H4 a H1). lia.
  - specialize (H2 b H3). specialize (H4 a H1). lia.
  - lia.
Qed.
Lemma changeLogLevel_range l d : DEBUG <= changeLogLevel l d <= ERROR.
Proof. unfold changeLogLevel, minmax, DEBUG, ERROR. lia. Qed.
Lemma changeLogLevel_exact l d : DEBUG <= l + 10 * d <= ERROR -> changeLogLevel l d = l + 10 * d.
Proof. unfold changeLogLevel, minmax, DEBUG, ERROR. lia. Qed.

(** ** inverseDict *)
Section Inverse.
  Context {K V : Type} (veqb : V -> V -> bool).
  Hypothesis veqb_spec : forall a b, veqb a b = true <-> a = b.
  Let step := fun (result : list (V * K)) (kv : K * V) => dset veqb (snd kv) (fst kv) result.

  Lemma inverse_loop data : forall acc v k,
    dget veqb v (fold_left step data acc) = Some k ->
    In (k, v) data \/ (dget veqb v acc = Some k /\ ~ In v (map snd data)).
  Proof.
    induction data as [|[k' v'] data IH]; intros acc v k H; cbn [fold_left] in H; [right; simpl; tauto|].
    apply IH in H as [H|[H Hn]]; [left; now right|].
    unfold step in H; simpl in H.
    destruct (veqb v v') eqn:E.
    - apply veqb_spec in E. subst v'. rewrite dget_dset_same in H by auto. inversion H. left. now left.
    - assert (v <> v') as Hne by (intros ->; rewrite (proj2 (veqb_spec v' v') eq_refl) in E; easy).
      rewrite dget_dset_other in H by auto. right. split; auto. simpl. intros [?|?]; [congruence|tauto].
  Qed.

  Lemma inverse_present data : forall acc v,
    In v (map snd data) \/ dget veqb v acc <> None ->
    dget veqb v (fold_left step data acc) <> None.
  Proof.
    induction data as [|[k' v'] data IH]; intros acc v H; cbn [fold_left map snd] in *; [tauto|].
    apply IH. unfold step; simpl. destruct (veqb v v') eqn:E.
    - apply veqb_spec in E. subst. right. now rewrite dget_dset_same.
    - assert (v <> v') as Hne by (intros ->; rewrite (proj2 (veqb_spec v' v') eq_refl) in E; easy).
      rewrite dget_dset_other by auto. destruct H as [[H|H]|H]; auto.
  Qed.

  Lemma inverseDict_sound (data : list (K * V)) v k : dget veqb v (inverseDict veqb data) = Some k -> In (k, v) data.
  Proof. intros H. apply inverse_loop in H as [H|[H _]]; auto. easy. Qed.
  Lemma inverseDict_total (data : list (K * V)) k v : In (k, v) data -> exists k', dget veqb v (inverseDict veqb data) = Some k'.
  Proof.
    intros H. assert (dget veqb v (inverseDict veqb data) <> None) as Hn.
    { apply inverse_present. left. apply in_map_iff. now exists (k, v). }
    destruct (dget veqb v (inverseDict veqb data)); eauto. easy.
  Qed.
  Lemma inverseDict_last (data data' : list (K * V)) k v :
    ~ In v (map snd data') -> dget veqb v (inverseDict veqb (data ++ (k, v) :: data')) = Some k.
  Proof.
    intros Hn. unfold inverseDict. rewrite fold_left_app. cbn [fold_left fst snd].
    fold step. set (acc := fold_left step data []).
    assert (H : forall acc, dget veqb v acc = Some k -> dget veqb v (fold_left step data' acc) = Some k).
    { clear acc. induction data' as [|[k' v'] d' IH]; intros acc Ha; cbn [fold_left]; auto.
      apply IH; [simpl in Hn; tauto|]. unfold step; simpl. rewrite dget_dset_other; auto.
      intros ->. simpl in Hn. tauto. }
    apply H. now rewrite dget_dset_same.
  Qed.
  Lemma inverseDict_inverse (data : list (K * V)) k v :
    NoDup (map snd data) -> (dget veqb v (inverseDict veqb data) = Some k <-> In (k, v) data).
  Proof.
    intros HN. split; [apply inverseDict_sound|]. intros H.
    destruct (inverseDict_total data k v H) as [k' Hk]. rewrite Hk. f_equal.
    apply inverseDict_sound in Hk. clear - HN H Hk.
    induction data as [|[k0 v0] data IH]; [easy|]. cbn [map snd] in HN. inversion HN as [|? ? Hni HN']; subst.
    destruct H as [H|H], Hk as [Hk|Hk]; try congruence; auto.
    - inversion H; subst. exfalso. apply Hni. apply in_map_iff. now exists (k', v).
    - inversion Hk; subst. exfalso. apply Hni. apply in_map_iff. now exists (k, v).
  Qed.
  Lemma inverseDict_keys (data : list (K * V)) : NoDup (map fst (inverseDict veqb data)).
  Proof.
    unfold inverseDict. fold step.
    assert (H : forall acc, NoDup (map fst acc) -> NoDup (map fst (fold_left step data acc))).
    { induction data as [|[k v] data IH]; intros acc Ha; cbn [fold_left]; auto.
      apply IH. unfold step. now apply dset_NoDup. }
    apply H. constructor.
  Qed.
End Inverse.

(** ** Paths *)
Lemma locate_abs cwd env ex prog : isabs prog = true -> locateProgram cwd env ex prog = prog.
Proof. intros H. unfold locateProgram. now rewrite H. Qed.

Lemma upto_last_slash_nil s : upto_last_slash s = [] <-> ~ In "/"%char s.
Proof.
  induction s as [|c s IH]; simpl; [tauto|].
  destruct (upto_last_slash s) as [|h t].
  - destruct (Ascii.eqb_spec c "/") as [->|Hn].
    + split; [easy|tauto].
    + split; auto. intros _ [H|H]; [congruence|]. now apply IH in H.
  - split; [easy|]. intros H. exfalso. assert (h :: t = []) by (apply IH; tauto). easy.
Qed.
Lemma upto_last_slash_prefix s : exists r, s = upto_last_slash s ++ r.
Proof.
  induction s as [|c s [r IH]]; simpl; [now exists []|].
  destruct (upto_last_slash s) as [|h t].
  - destruct (Ascii.eqb c "/"); [exists s|exists (c :: s)]; reflexivity.
  - exists r. simpl in *. now rewrite IH at 1.
Qed.
Lemma rstrip_slash_nil s : rstrip_slash_rev s = [] -> forallb (Ascii.eqb "/") s = true.
Proof.
  induction s as [|c s IH]; simpl; auto. destruct (Ascii.eqb_spec c "/") as [->|]; [|easy].
  intros H. now rewrite IH.
Qed.
Lemma forallb_rev {A} (f : A -> bool) l : forallb f (rev l) = forallb f l.
Proof.
  apply eq_iff_eq_true. rewrite !forallb_forall. split; intros H x Hx; apply H.
  - now rewrite <- in_rev.
  - now rewrite <- in_rev in Hx.
Qed.

Lemma dirname_empty s : isabs s = false -> (dirname s = [] <-> ~ In "/"%char s).
Proof.
  intros Ha. rewrite <- upto_last_slash_nil. unfold dirname.
  destruct (upto_last_slash s) as [|h t] eqn:E; [simpl; tauto|].
  split; [|easy]. intros H. exfalso.
  destruct (forallb (Ascii.eqb "/") (h :: t)) eqn:F; [easy|].
  assert (rstrip_slash_rev (rev (h :: t)) = []) as H2.
  { destruct (rstrip_slash_rev (rev (h :: t))); auto. simpl in H. now apply app_eq_nil in H as [_ H]. }
  apply rstrip_slash_nil in H2. rewrite forallb_rev in H2. congruence.
Qed.

Lemma locate_in_spec ex prog paths :
  (exists pre d post, paths = pre ++ d :: post /\ locate_in ex prog paths = path_join d prog /\
     ex (path_join d prog) = true /\ (forall x, In x pre -> ex (path_join x prog) = false)) \/
  (locate_in ex prog paths = prog /\ forall x, In x paths -> ex (path_join x prog) = false).
Proof.
  induction paths as [|d paths IH]; cbn [locate_in].
  - right. split; auto. intros x [].
  - destruct (ex (path_join d prog)) eqn:E.
    + left. exists [], d, paths. repeat split; auto. intros x [].
    + destruct IH as [[pre [d' [post [H1 [H2 [H3 H4]]]]]]|[H1 H2]].
      * left. exists (d :: pre), d', post. subst. repeat split; auto.
        intros x [<-|Hx]; auto.
      * right. split; auto. intros x [<-|Hx]; auto.
Qed.

Lemma locate_bare cwd env ex prog : isabs prog = false -> ~ In "/"%char prog ->
  locateProgram cwd env ex prog =
  match env with None | Some [] => prog | Some p => locate_in ex prog (split_char ":" p) end.
Proof.
  intros Ha Hn. unfold locateProgram. rewrite Ha. apply (dirname_empty prog Ha) in Hn. now rewrite Hn.
Qed.

(** normpath on an absolute path *)
Definition plain (c : text) : bool := negb (text_eqb c [] || text_eqb c (T ".") || text_eqb c (T "..")).

Lemma norm_comps_abs comps : forall stack, forallb plain stack = true ->
  norm_comps true comps stack = rev (fold_left step_dir comps stack) /\
  forallb plain (fold_left step_dir comps stack) = true.
Proof.
  induction comps as [|c comps IH]; intros stack Hp; cbn [norm_comps fold_left]; auto.
  unfold step_dir at 2 4. destruct (text_eqb c [] || text_eqb c (T ".")) eqn:E; auto.
  destruct (text_eqb c (T "..")) eqn:E2; cbn [negb orb andb].
  - destruct stack as [|t stack]; cbn [tl].
    + apply IH. reflexivity.
    + cbn [forallb] in Hp. apply andb_prop in Hp as [Ht Hs].
      assert (text_eqb t (T "..") = false) as ->.
      { unfold plain in Ht. destruct (text_eqb t (T "..")); auto. now rewrite orb_true_r in Ht. }
      now apply IH.
  - apply IH. cbn [forallb]. rewrite Hp, andb_true_r. unfold plain. now rewrite E, E2.
Qed.

Lemma normpath_abs s : starts_with (T "/") s = true -> starts_with (T "//") s = false ->
  normpath s = T "/" ++ join (T "/") (walk (split_char "/" s)) /\
  forallb plain (walk (split_char "/" s)) = true.
Proof.
  intros H1 H2. unfold normpath. destruct s as [|c s]; [easy|]. rewrite H1, H2.
  cbn [andb]. cbn [T list_ascii_of_string]. cbv iota.
  destruct (norm_comps_abs (split_char "/" (c :: s)) [] eq_refl) as [E1 E2]. rewrite E1.
  unfold walk. split.
  - reflexivity.
  - now rewrite forallb_rev.
Qed.

Lemma locate_relative cwd env ex prog :
  isabs prog = false -> In "/"%char prog ->
  starts_with (T "/") cwd = true -> starts_with (T "//") cwd = false -> cwd <> T "/" ->
  ends_with (T "/") cwd = false ->
  locateProgram cwd env ex prog =
  T "/" ++ join (T "/") (walk (split_char "/" (cwd ++ T "/" ++ prog))) /\
  forallb plain (walk (split_char "/" (cwd ++ T "/" ++ prog))) = true.
Proof.
  intros Ha Hi H1 H2 Hne He. unfold locateProgram. rewrite Ha.
  destruct (dirname prog) as [|c d] eqn:E.
  - apply (dirname_empty prog Ha) in E. contradiction.
  - assert (path_join cwd prog = cwd ++ T "/" ++ prog) as ->.
    { unfold path_join. unfold isabs in Ha. rewrite Ha. destruct cwd; [easy|]. now rewrite He. }
    apply normpath_abs.
    + apply starts_with_spec in H1 as [r ->]. apply starts_with_spec. exists (r ++ T "/" ++ prog).
      now rewrite <- app_assoc.
    + destruct cwd as [|x [|y cwd]]; [easy| |].
      * apply starts_with_spec in H1 as [r H1]. inversion H1; subst. easy.
      * cbn [app]. cbn [starts_with T list_ascii_of_string] in H1, H2 |- *. auto.
Qed.

(** the components walked are those of the directory followed by those of the name *)
Lemma split_app c a b : split_char c (a ++ c :: b) = split_char c a ++ split_char c b.
Proof.
  induction a as [|x a IH]; simpl.
  - rewrite Ascii.eqb_refl. pose proof (split_char_nonempty c b). now destruct (split_char c b).
  - rewrite IH. pose proof (split_char_nonempty c a). destruct (split_char c a); [easy|].
    simpl. now destruct (Ascii.eqb x c).
Qed.

Lemma display_readBits value table names : flag_display value table names -> readBits value table = names.
Proof. intros H. eapply flag_display_fun; [apply readBits_spec|exact H]. Qed.

Lemma formatMmapProt_spec value names : flag_display value MMAP_PROT_BITMASK names ->
  formatMmapProt value = if value =? 0 then T "PROT_NONE"
    else T "<" ++ join (T "|") names ++ T "> (" ++ str_int value ++ T ")".
Proof.
  intros H. apply display_readBits in H. unfold formatMmapProt. destruct (Z.eqb_spec value 0) as [->|Hn].
  - now rewrite formatBits_zero.
  - now rewrite formatBits_nonzero, H.
Qed.
Lemma formatAccessMode_spec value names : flag_display value ACCESS_MODE_BITMASK names ->
  formatAccessMode value = if value =? 0 then T "F_OK"
    else T "<" ++ join (T "|") names ++ T "> (" ++ str_int value ++ T ")".
Proof.
  intros H. apply display_readBits in H. unfold formatAccessMode. destruct (Z.eqb_spec value 0) as [->|Hn].
  - now rewrite formatBits_zero.
  - now rewrite formatBits_nonzero, H.
Qed.
Lemma formatOpenFlags_names value names : flag_display value OPEN_FLAGS_BITMASK names ->
  formatOpenFlags value =
    join (T "|") ((if Z.testbit value 0 || Z.testbit value 1 then [] else [T "O_RDONLY"]) ++ names)
    ++ (if value =? 0 then [] else T " (" ++ py_oct value ++ T ")").
Proof. intros H. apply display_readBits in H. rewrite formatOpenFlags_spec, H. reflexivity. Qed.
Lemma formatCloneFlags_names signame flags names : flag_display flags CLONE_FLAGS_BITMASK names ->
  formatCloneFlags signame flags =
  if flags =? 0 then T "0"
  else T "<" ++ join (T "|") ((if flags mod 256 =? 0 then [] else [signame (flags mod 256)]) ++ names)
       ++ T "> (" ++ str_int flags ++ T ")".
Proof. intros H. apply display_readBits in H. now rewrite formatCloneFlags_spec, H. Qed.
Lemma py_oct_reads v : 0 <= v -> exists ds, py_oct v = T "0o" ++ ds /\ read_uint 8 ds = Some v.
Proof.
  intros H. exists (digits 8 v). unfold py_oct. destruct (Z.ltb_spec v 0); [lia|]. split; auto.
  now apply read_uint_digits.
Qed.
Lemma getLogFunc_spec :
  getLogFunc 10 = log_debug /\ getLogFunc 20 = log_info /\ getLogFunc 30 = log_warning /\
  forall l, l <> 10 -> l <> 20 -> l <> 30 -> getLogFunc l = log_error.
Proof.
  repeat split. intros l H1 H2 H3. unfold getLogFunc, ERROR, WARNING, INFO, DEBUG.
  destruct (l =? 40); auto. destruct (Z.eqb_spec l 30), (Z.eqb_spec l 20), (Z.eqb_spec l 10); congruence.
Qed.
Lemma bare_not_abs prog : ~ In "/"%char prog -> isabs prog = false.
Proof.
  intros H. unfold isabs. destruct (starts_with (T "/") prog) eqn:E; auto.
  apply starts_with_spec in E as [r ->]. exfalso. apply H. now left.
Qed.
Lemma locate_path cwd dirs ex prog :
  ~ In "/"%char prog -> (forall d, In d dirs -> ~ In ":"%char d) -> dirs <> [] -> join (T ":") dirs <> [] ->
  (exists pre d post, dirs = pre ++ d :: post /\
     locateProgram cwd (Some (join (T ":") dirs)) ex prog = path_join d prog /\
     ex (path_join d prog) = true /\ (forall x, In x pre -> ex (path_join x prog) = false)) \/
  (locateProgram cwd (Some (join (T ":") dirs)) ex prog = prog /\
     forall x, In x dirs -> ex (path_join x prog) = false).
Proof.
  intros Hp Hd Hne Hj. rewrite locate_bare by (auto using bare_not_abs).
  destruct (join (T ":") dirs) eqn:E; [easy|]. rewrite <- E. change (T ":") with [":"%char]. rewrite (split_join ":"%char dirs) by auto.
  apply locate_in_spec.
Qed.
Lemma locate_no_path cwd env ex prog : ~ In "/"%char prog ->
  env = None \/ env = Some [] -> locateProgram cwd env ex prog = prog.
Proof.
  intros Hp He. rewrite locate_bare by (auto using bare_not_abs). now destruct He as [->| ->].
Qed.
Lemma locate_relative_walk cwd env ex prog :
  isabs prog = false -> In "/"%char prog ->
  starts_with (T "/") cwd = true -> starts_with (T "//") cwd = false -> cwd <> T "/" ->
  ends_with (T "/") cwd = false ->
  let comps := walk (split_char "/" cwd ++ split_char "/" prog) in
  locateProgram cwd env ex prog = T "/" ++ join (T "/") comps /\
  Forall (fun c => c <> [] /\ c <> T "." /\ c <> T "..") comps.
Proof.
  intros H1 H2 H3 H4 H5 H6. 
  destruct (locate_relative cwd env ex prog H1 H2 H3 H4 H5 H6) as [E1 E2].
  change (T "/" ++ prog) with ("/"%char :: prog) in E1, E2. rewrite split_app in E1, E2.
  cbv zeta. split; auto. apply Forall_forall. intros c Hc. rewrite forallb_forall in E2.
  apply E2 in Hc. unfold plain in Hc. rewrite negb_true_iff, !orb_false_iff, !text_eqb_neq in Hc. tauto.
Qed.
