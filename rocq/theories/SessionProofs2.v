From Coq Require Import ZArith List Ascii String Bool Lia.
From Verif Require Import PyBase PyFacts Platform IntModel IntSpec CallModel MemModel MemSpec MemProofs MemProofs2 MemProofs3 MemFinal
  StructModel StructProofs RegModel RegSpec RegProofs RegFinal BreakModel BreakSpec BreakProofs BreakFinal SessionModel SessionSpec SessionProofs.
Import ListNotations.
Open Scope Z_scope.

Section Sim.
  Context (E : penv) (K : rkernel) (exec : program).
  Hypothesis HE : plain E.
  Hypothesis Hi : is_intel (p_cpu (e_p E)) = true.
  Hypothesis Hnat : native (e_p E).
  Hypothesis Hget : rk_get K = None.
  Hypothesis Hset : forall r, rk_set K r = None.
  Let p := e_p E.

  Lemma Hin : intel_native p.
  Proof. split; [apply HE|]. split; [exact Hi|exact Hnat]. Qed.
  Lemma trap_bytes n d : break_bytes E n = Ok d -> d = repeat (z2b 0xcc) (Z.to_nat n).
  Proof. unfold break_bytes. destruct (p_cpu (e_p E)); try discriminate Hi; cbn; intros H; now injection H as <-. Qed.

  Record sim (i : ideal_state) (st : bstate) : Prop := {
    sm_inv : inv E (i_mem i) st;
    sm_regs : r_regs (b_regs st) = i_regs i;
    sm_whole : whole p (i_regs i);
    sm_bps : forall a n, In (a, n) (i_breakpoints i) <-> exists bp, live st bp /\ bp_address bp = a /\ bp_size bp = n;
    sm_file : s_file (b_mem st) <> FileClosed;
    sm_top : forall a n, In (a, n) (i_breakpoints i) -> a + n < 2 ^ (8 * word_size p)
  }.
  Lemma sim_covered i st x : sim i st -> (covered (i_breakpoints i) x <-> exists bp, live st bp /\ covers bp x).
  Proof.
    intros S. split.
    - intros ([a n] & H & C). apply (sm_bps _ _ S) in H as (bp & L & <- & <-). exists bp. auto.
    - intros (bp & L & C). exists (bp_address bp, bp_size bp). split; [apply (sm_bps _ _ S); eauto|exact C].
  Qed.
  Lemma covered_dec l x : {covered l x} + {~ covered l x}.
  Proof.
    induction l as [|[a n] l IH]; [right; intros (an & [] & _)|].
    destruct (Z_le_dec a x); [destruct (Z_lt_dec x (a + n))|].
    - left. exists (a, n). split; [now left|]. unfold in_range. cbn. lia.
    - destruct IH as [IH|IH]; [left; destruct IH as (an & ? & ?); exists an; split; [now right|auto]|].
      right. intros (an & [<-|H] & C); [unfold in_range in C; cbn in C; lia|]. apply IH. exists an. auto.
    - destruct IH as [IH|IH]; [left; destruct IH as (an & ? & ?); exists an; split; [now right|auto]|].
      right. intros (an & [<-|H] & C); [unfold in_range in C; cbn in C; lia|]. apply IH. exists an. auto.
  Qed.
  (** Breakpoints that share an address are the same. *)
  Lemma live_once k st b b' x : inv E k st -> live st b -> live st b' -> covers b x -> covers b' x -> b = b'.
  Proof.
    intros I L L' C C'. destruct (Z.eq_dec (bp_address b) (bp_address b')) as [e|e].
    - destruct (live_inv _ _ _ _ I L) as (id & A1 & A2 & _). destruct (live_inv _ _ _ _ I L') as (id' & B1 & B2 & _).
      rewrite e in A1. pose proof (dget_NoDup_In Z.eqb Z.eqb_eq _ _ _ (i_keys _ _ _ I) A1) as E1.
      pose proof (dget_NoDup_In Z.eqb Z.eqb_eq _ _ _ (i_keys _ _ _ I) B1) as E2. congruence.
    - destruct C, C'. destruct (i_apart _ _ _ I b b' L L' e); lia.
  Qed.
  Lemma live_address k st b b' : inv E k st -> live st b -> live st b' -> bp_address b = bp_address b' -> b = b'.
  Proof.
    intros I L L' e. destruct (live_inv _ _ _ _ I L) as (_ & _ & _ & _ & _ & _ & A & _). destruct A as (A & _).
    destruct (live_inv _ _ _ _ I L') as (_ & _ & _ & _ & _ & _ & A' & _). destruct A' as (A' & _).
    apply (live_once k st b b' (bp_address b) I L L'); split; lia.
  Qed.
  Lemma live_size k st b : inv E k st -> live st b -> 0 < bp_size b.
  Proof. intros I L. destruct (live_inv _ _ _ _ I L) as (_ & _ & _ & _ & _ & _ & A & _). apply A. Qed.
  Lemma mapped_iff i st x : sim i st -> (k_byte (s_mem (b_mem st)) x <> None <-> k_byte (i_mem i) x <> None).
  Proof.
    intros S. destruct (covered_dec (i_breakpoints i) x) as [C|C].
    - apply (sim_covered i st x S) in C as (bp & L & C1 & C2).
      destruct (live_inv _ _ _ _ (sm_inv _ _ S) L) as (id & _ & _ & _ & A & B & _ & nw & _ & C & D).
      assert (forall k (d : list byte), stored k (bp_address bp) d -> zlen d = bp_size bp -> k_byte k x <> None) as H.
      { intros k d Hs Hl. destruct (nth_error d (Z.to_nat (x - bp_address bp))) as [c|] eqn:Ec.
        - pose proof (Hs _ _ Ec) as Hc. replace (bp_address bp + _) with x in Hc by lia. congruence.
        - apply nth_error_None in Ec. unfold zlen in Hl. lia. }
      split; intros _; [exact (H _ _ B A)|exact (H _ _ D C)].
    - rewrite (i_rest _ _ _ (sm_inv _ _ S)); [tauto|]. intros bp L Hc. apply C. apply (sim_covered i st x S). eauto.
  Qed.
  Lemma settable_accessible i st a n : sim i st -> settable E (i_mem i) (i_breakpoints i) a n -> accessible E (b_mem st) a n.
  Proof.
    intros S (A & B & _ & C & D & F & _). split; [exact A|]. split; [exact B|]. split.
    - intros x w Hx Hw y Hy. apply (mapped_iff i st y S). now apply (D x w Hx Hw).
    - split.
      + intros x w Hx Hw y Hy. rewrite (i_poke _ _ _ (sm_inv _ _ S)). now apply (F x w Hx Hw).
      + right. split; [exact (sm_file _ _ S)|exact C].
  Qed.
  Lemma settable_apart i st a n : sim i st -> settable E (i_mem i) (i_breakpoints i) a n ->
    forall bp, live st bp -> covers bp a \/ apart a n (bp_address bp) (bp_size bp).
  Proof.
    intros S (_ & _ & _ & _ & _ & _ & H) bp L. apply (H (bp_address bp) (bp_size bp)). apply (sm_bps _ _ S). eauto.
  Qed.

  (** *** Setting a breakpoint *)
  Lemma create_live i st a size : sim i st -> accessible E (b_mem st) a (break_size E size) -> findBreakpoint a st = None ->
    let st' := fst (createBreakpoint E a size st) in
    b_regs st' = b_regs st /\ s_file (b_mem st') <> FileClosed /\
    exists bp, bp_address bp = a /\ bp_size bp = break_size E size /\ forall b, live st' b <-> live st b \/ b = bp.
  Proof.
    intros S Ha Hf st'. pose proof (sm_inv _ _ S) as I. destruct HE as (Ho & Hb & Hp & Hfa & Hn & Hop).
    destruct (new_breakpoint_ok E Ho Hp Hfa Hn Hop Hb a size (b_mem st) Ha) as (m & old & new & R & _).
    assert (s_file m <> FileClosed) as Hm.
    { assert (keeps (new_breakpoint E a size)) as Hk; [|pose proof (proj2 (Hk (b_mem st)) (sm_file _ _ S)) as Hk'; rewrite R in Hk'; exact Hk'].
      unfold new_breakpoint. apply keeps_bind; [apply keeps_read|]. intros d. apply keeps_bind; [apply keeps_lift|]. intros d'.
      apply keeps_bind; [apply keeps_write|]. intros []. apply keeps_ret. }
    unfold st', createBreakpoint. rewrite Hf, R. cbn [fst]. split; [reflexivity|]. split; [exact Hm|].
    exists (BP a (break_size E size) old true). split; [reflexivity|]. split; [reflexivity|].
    assert (~ In a (map fst (b_dict st))) as Hnew.
    { intros H. apply in_map_iff in H as ((a' & j) & E1 & H). cbn in E1. subst a'.
      destruct (i_dict _ _ _ I a j H) as (b & B1 & B2 & B3 & B4 & B5 & B6 & _).
      eapply find_in_none; [exact Hf|exact H|exact B1|]. split; [lia|]. destruct B6 as (B6 & _). lia. }
    pose proof (dset_new_in (b_dict st) a (List.length (b_objs st)) Hnew) as Hds.
    intros b. split.
    - intros (a' & j & H1 & H2). cbn in H1, H2. apply Hds in H1 as [H1|[-> ->]].
      + left. exists a', j. split; [exact H1|]. destruct (i_dict _ _ _ I a' j H1) as (b' & B1 & _).
        rewrite nth_error_app1 in H2; [exact H2|]. apply nth_error_Some. congruence.
      + right. rewrite nth_error_app2, Nat.sub_diag in H2 by lia. cbn in H2. congruence.
    - intros [(a' & j & H1 & H2)| ->].
      + exists a', j. cbn. split; [apply Hds; now left|]. rewrite nth_error_app1; [exact H2|]. apply nth_error_Some. congruence.
      + exists a, (List.length (b_objs st)). cbn. split; [apply Hds; now right|]. now rewrite nth_error_app2, Nat.sub_diag by lia.
  Qed.
  Lemma sim_break i st a size i' : sim i st -> settable E (i_mem i) (i_breakpoints i) a (break_size E size) -> ideal E exec i (Break a size) i' ->
    sim i' (fst (createBreakpoint E a size st)).
  Proof.
    intros S Hs HI. pose proof (settable_accessible _ _ _ _ S Hs) as Ha. pose proof HE as (Ho & Hb & Hp & Hfa & Hn & Hop).
    inversion HI as [k r l a0 s0 Hc E1 E2 E3|k r l a0 s0 Hc E1 E2 E3| | | | |]; subst.
    - destruct (findBreakpoint a st) as [id|] eqn:Ef.
      { destruct (find_live _ _ _ Ef) as (bp & _ & L & C). exfalso. apply Hc. apply (sim_covered _ _ _ S). eauto. }
      destruct (create_live _ _ _ _ S Ha Ef) as (R1 & R2 & bp & B1 & B2 & B3). constructor.
      + exact (create_inv E Ho Hp Hfa Hn Hop Hb (i_mem (Ideal k r l)) st a size (sm_inv _ _ S) Ha (settable_apart _ _ _ _ S Hs)).
      + rewrite R1. exact (sm_regs _ _ S).
      + exact (sm_whole _ _ S).
      + intros a' n'. cbn [i_breakpoints]. rewrite in_app_iff. pose proof (sm_bps _ _ S a' n') as Hb'. cbn [i_breakpoints] in Hb'. rewrite Hb'. split.
        * intros [(b & L & A1 & A2)|[[= <- <-]|[]]]; [exists b; split; [apply B3; now left|auto]|exists bp; split; [apply B3; now right|auto]].
        * intros (b & L & A1 & A2). apply B3 in L as [L| ->]; [left; eauto|right; left; congruence].
      + exact R2.
      + intros a' n'. cbn [i_breakpoints]. rewrite in_app_iff. intros [H|[[= <- <-]|[]]]; [exact (sm_top _ _ S a' n' H)|apply Hs].
    - rewrite (create_refused_live E st a size) with (bp := match findBreakpoint a st with Some id => nth id (b_objs st) (BP 0 0 [] true) | None => BP 0 0 [] true end).
      + exact S.
      + apply (sim_covered _ _ _ S) in Hc. destruct (proj2 (find_iff st a) Hc) as [id Hf]. rewrite Hf.
        destruct (find_live _ _ _ Hf) as (bp & N & L & C). rewrite (nth_error_nth _ _ _ N). exact L.
      + apply (sim_covered _ _ _ S) in Hc. destruct (proj2 (find_iff st a) Hc) as [id Hf]. rewrite Hf.
        destruct (find_live _ _ _ Hf) as (bp & N & L & C). rewrite (nth_error_nth _ _ _ N). exact C.
  Qed.

  (** *** Removing a breakpoint *)
  Lemma del_in (d : list (Z * nat)) x : NoDup (map fst d) -> forall a i, In (a, i) (ddel Z.eqb x d) <-> In (a, i) d /\ a <> x.
  Proof.
    intros Hnd a i. induction d as [|[a' i'] d IH]; cbn; [tauto|]. cbn in Hnd. inversion Hnd as [|? ? H1 H2]; subst.
    destruct (x =? a') eqn:Ea.
    - apply Z.eqb_eq in Ea. subst a'. split.
      + intros H. split; [now right|]. intros ->. apply H1. apply in_map_iff. exists (x, i). auto.
      + intros [[[= <- <-]|H] Hne]; [congruence|exact H].
    - cbn. rewrite IH by auto. apply Z.eqb_neq in Ea. split.
      + intros [[= <- <-]|[H Hne]]; [split; [now left|congruence]|split; [now right|exact Hne]].
      + intros [[[= <- <-]|H] Hne]; [now left|right; auto].
  Qed.
  Lemma remove_live k st id bp : inv E k st -> nth_error (b_objs st) id = Some bp -> bp_installed bp = true -> s_file (b_mem st) <> FileClosed ->
    exists st', desinstall E K id false st = (st', Ok tt) /\ b_regs st' = b_regs st /\ s_file (b_mem st') <> FileClosed /\
      forall b, live st' b <-> live st b /\ bp_address b <> bp_address bp.
  Proof.
    intros I En Hinst Hfile. destruct HE as (Ho & Hb & Hp & Hfa & Hn & Hop).
    pose proof (i_objs _ _ _ I id bp En Hinst) as Hd.
    destruct (i_dict _ _ _ I _ _ Hd) as (bp' & B1 & B2 & B3 & B4 & B5 & B6 & nw & B7 & B8 & B9). rewrite En in B1. injection B1 as <-.
    destruct (write_access E Ho Hp Hfa Hn Hop Hb (bp_address bp) (bp_old bp) (b_mem st)) as (m & W1 & W2 & W3); [now rewrite B4|].
    assert (s_file m <> FileClosed) as Hm.
    { pose proof (proj2 (keeps_write E (bp_address bp) (bp_old bp) (b_mem st)) Hfile) as Hk. rewrite W1 in Hk. exact Hk. }
    unfold desinstall. rewrite En, Hinst. cbn [negb b_running with_objs]. rewrite (i_running _ _ _ I). cbn [b_mem with_objs]. rewrite W1.
    unfold removeBreakpoint. cbn [b_dict with_objs with_mem].
    assert (dmem Z.eqb (bp_address bp) (b_dict st) = true) as ->.
    { unfold dmem. now rewrite (dget_NoDup_In Z.eqb Z.eqb_eq _ _ _ (i_keys _ _ _ I) Hd). }
    eexists. split; [reflexivity|]. split; [reflexivity|]. split; [exact Hm|].
    pose proof (del_in (b_dict st) (bp_address bp) (i_keys _ _ _ I)) as Hdel.
    assert (forall a i, In (a, i) (b_dict st) -> a <> bp_address bp -> i <> id) as Hid.
    { intros a i H Hne ->. destruct (i_dict _ _ _ I a id H) as (b & C1 & _ & C3 & _). rewrite En in C1. injection C1 as <-. congruence. }
    intros b. split.
    - intros (a & i & H1 & H2). cbn in H1, H2. apply Hdel in H1 as [H1 Hne]. rewrite nth_set_nth in H2.
      pose proof (Hid a i H1 Hne) as Hii. rewrite (proj2 (Nat.eqb_neq i id) Hii) in H2. split; [exists a, i; auto|].
      destruct (i_dict _ _ _ I a i H1) as (b' & C1 & _ & C3 & _). congruence.
    - intros [Hl Hne]. destruct (live_inv _ _ _ _ I Hl) as (i & L1 & L2 & _). exists (bp_address b), i. cbn. split; [apply Hdel; auto|].
      rewrite nth_set_nth, (proj2 (Nat.eqb_neq i id) (Hid _ _ L1 Hne)). exact L2.
  Qed.
  Lemma in_without an l a n : In (a, n) (without an l) <-> In (a, n) l /\ (a, n) <> an.
  Proof.
    unfold without. rewrite filter_In. cbn [fst snd]. destruct an as [b m]. cbn [fst snd]. split; intros [H1 H2]; split; auto.
    - intros [= -> ->]. rewrite !Z.eqb_refl in H2. discriminate.
    - destruct (a =? b) eqn:E1; [|reflexivity]. destruct (n =? m) eqn:E2; [|reflexivity]. apply Z.eqb_eq in E1, E2. congruence.
  Qed.
  Lemma sim_remove k r l st an bp id : sim (Ideal k r l) st -> In an l -> nth_error (b_objs st) id = Some bp -> live st bp ->
    bp_address bp = fst an -> bp_size bp = snd an -> sim (Ideal k r (without an l)) (fst (desinstall E K id false st)) /\ snd (desinstall E K id false st) = Ok tt.
  Proof.
    intros S Ha En L A1 A2. pose proof HE as (Ho & Hb & Hp & Hfa & Hn & Hop). pose proof (sm_inv _ _ S) as I.
    assert (bp_installed bp = true) as Hin1 by (destruct (live_inv _ _ _ _ I L) as (_ & _ & _ & H & _); exact H).
    destruct (remove_live k st id bp I En Hin1 (sm_file _ _ S)) as (st' & R1 & R2 & R3 & R4). rewrite R1. cbn [fst snd]. split; [|reflexivity].
    constructor.
    - pose proof (remove_inv E Ho Hp Hfa Hn Hop Hb K k st id I) as H. rewrite R1 in H. exact H.
    - rewrite R2. exact (sm_regs _ _ S).
    - exact (sm_whole _ _ S).
    - intros a n. cbn [i_breakpoints]. rewrite in_without. pose proof (sm_bps _ _ S a n) as Hb1. cbn [i_breakpoints] in Hb1. rewrite Hb1. split.
      + intros [(b & Lb & <- & <-) Hne]. exists b. split; [|auto]. apply R4. split; [exact Lb|]. intros e. apply Hne.
        rewrite (live_address k st b bp I Lb L e), A1, A2. now destruct an.
      + intros (b & Lb & <- & <-). apply R4 in Lb as [Lb Hne]. split; [eauto|]. intros e. apply Hne. rewrite A1, <- e. reflexivity.
    - exact R3.
    - intros a n. cbn [i_breakpoints]. rewrite in_without. intros [H _]. exact (sm_top _ _ S a n H).
  Qed.
  Lemma sim_find i st an x : sim i st -> In an (i_breakpoints i) -> in_range an x ->
    exists id bp, findBreakpoint x st = Some id /\ nth_error (b_objs st) id = Some bp /\ live st bp /\ bp_address bp = fst an /\ bp_size bp = snd an.
  Proof.
    intros S Ha Hx. destruct an as [a n]. apply (sm_bps _ _ S) in Ha as (b & L & <- & <-).
    destruct (proj2 (find_iff st x)) as [id Hf]; [exists b; split; [exact L|exact Hx]|].
    destruct (find_live _ _ _ Hf) as (bp & N & L' & C). exists id, bp. split; [exact Hf|]. split; [exact N|]. split; [exact L'|].
    rewrite (live_once _ _ b bp x (sm_inv _ _ S) L L' Hx C). auto.
  Qed.
  Lemma sim_delete i st a i' : sim i st -> ideal E exec i (Delete a) i' -> sim i' (fst (delete_breakpoint E K a st)).
  Proof.
    intros S HI. inversion HI as [| |k r l a0 an Ha Hx E1 E2 E3|k r l a0 Hc E1 E2 E3| | |]; subst; unfold delete_breakpoint.
    - destruct (sim_find _ _ an a S Ha Hx) as (id & bp & F & N & L & A1 & A2). rewrite F.
      destruct (sim_remove k r l st an bp id S Ha N L A1 A2) as [H1 H2]. destruct (desinstall E K id false st) as [st' [u|e]]; cbn in *; [exact H1|discriminate].
    - destruct (findBreakpoint a st) as [id|] eqn:Ef; [|exact S].
      destruct (find_live _ _ _ Ef) as (bp & _ & L & C). exfalso. apply Hc. apply (sim_covered _ _ _ S). eauto.
  Qed.
End Sim.
