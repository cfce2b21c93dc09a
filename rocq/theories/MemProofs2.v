From Coq Require Import ZArith List Ascii String Bool Lia.
From Verif Require Import PyBase PyFacts Platform IntModel IntSpec IntProofs CallModel CallSpec CallProofs MemModel MemSpec MemProofs.
Import ListNotations.
Open Scope Z_scope.


Notation can_read := file_usable.

Lemma linux_flags p : p_os p = Linux -> has_ptrace_io p = false /\ has_proc p = true.
Proof. intros H. unfold has_ptrace_io, has_proc, running_bsd, running_linux. now rewrite H. Qed.

Lemma skipn_skipn {A} m : forall n (l : list A), skipn m (skipn n l) = skipn (n + m) l.
Proof.
  induction n as [|n IH]; intros l; [reflexivity|]. destruct l; [now rewrite !skipn_nil|]. apply IH.
Qed.

Lemma written_nil_any k k' a b : written k k' a [] -> written k k' b [].
Proof.
  assert (N : forall n, nth_error (@nil byte) n = None) by (intros [|n]; reflexivity).
  intros [H P]. split; [|exact P]. intros x. rewrite H. rewrite !N.
  destruct (_ <=? x), (_ <=? x); reflexivity.
Qed.

Section Linux.
  Context (E : penv).
  Let p := e_p E.
  Let W := word_size p.
  Hypothesis Hos : p_os p = Linux.
  Hypothesis Hpid : good_pid E.
  Hypothesis Hf : faithful E.

  Lemma readBytes_linux a n s :
    readBytes E a n s = if s_fallback s then readBytes_ptrace E a n s else readBytes_procmem E a n s.
  Proof. unfold readBytes. fold p. destruct (linux_flags p Hos) as [-> ->]. reflexivity. Qed.

  Lemma ptrace_ok_stored a n s s' d : 0 < n -> in_space E a n ->
    readBytes_ptrace E a n s = (s', Ok d) -> stored (s_mem s) a d /\ zlen d = n.
  Proof.
    intros Hn Hsp H.
    destruct (readBytes_ptrace_spec E Hpid a n s (or_introl Hn) Hsp) as [[_ (bs & Hs & Hl & Hr)]|[_ [e He]]].
    - rewrite Hr in H. injection H as _ <-. auto.
    - congruence.
  Qed.

  Lemma procmem_unfold a n s :
    readBytes_procmem E a n s =
    match s_file s, e_open E with
    | FileClosed, _ => (s, Err EProcessError)
    | FileNone, Err (EOSError _) => readBytes_ptrace E a n (set_fallback s)
    | FileNone, Err e => (s, Err e)
    | _, _ =>
        let s := set_file s FileOpen in
        if 2 ^ 63 <=? a then (s, Err EOverflowError)
        else if a <? 0 then (s, Err EProcessError)
        else match e_read E (s_mem s) a n with
             | Err (EOSError _) => (s, Err EProcessError)
             | Err EValueError => (s, Err EProcessError)
             | Err e => (s, Err e)
             | Ok data =>
                 if (zlen data =? 0) && negb (n =? 0)
                 then readBytes_ptrace E a n (set_fallback s)
                 else (s, Ok data)
             end
    end.
  Proof.
    unfold readBytes_procmem. destruct s as [k f b]; cbn.
    destruct f, (e_open E) as [u|e]; cbn; try reflexivity; destruct e; reflexivity.
  Qed.

  Lemma readBytes_sound a n s s' d : 0 < n -> in_space E a n ->
    readBytes E a n s = (s', Ok d) -> stored (s_mem s) a d /\ zlen d <= n.
  Proof.
    intros Hn Hsp. rewrite readBytes_linux. destruct (s_fallback s).
    - intros H. destruct (ptrace_ok_stored _ _ _ _ _ Hn Hsp H). split; [auto|lia].
    - rewrite procmem_unfold.
      assert (Hopen : forall s0, s_mem s0 = s_mem s ->
        (if 2 ^ 63 <=? a then (s0, Err EOverflowError)
        else if a <? 0 then (s0, Err EProcessError)
        else match e_read E (s_mem s0) a n with
             | Err (EOSError _) => (s0, Err EProcessError)
             | Err EValueError => (s0, Err EProcessError)
             | Err e => (s0, Err e)
             | Ok data =>
                 if (zlen data =? 0) && negb (n =? 0)
                 then readBytes_ptrace E a n (set_fallback s0)
                 else (s0, Ok data)
             end) = (s', Ok d) -> stored (s_mem s) a d /\ zlen d <= n).
      { intros s0 Hs0. rewrite Hs0. destruct (2 ^ 63 <=? a); [discriminate|]. destruct (a <? 0) eqn:Ea; [discriminate|].
        destruct (e_read E (s_mem s) a n) as [d0|[]] eqn:Er; try discriminate.
        destruct ((zlen d0 =? 0) && negb (n =? 0)).
        - intros H. destruct (ptrace_ok_stored _ _ _ _ _ Hn Hsp H) as [A B].
          cbn in A. rewrite Hs0 in A. split; [auto|lia].
        - intros [= _ <-]. apply Hf in Er; [tauto|blia|lia]. }
      cbv zeta.
      destruct (s_file s); [destruct (e_open E) as [u|[]]; try discriminate| |].
      + now apply Hopen.
      + intros H. destruct (ptrace_ok_stored _ _ _ _ _ Hn Hsp H) as [A B]. split; [auto|lia].
      + destruct (e_open E); now apply Hopen.
      + destruct (e_open E); discriminate.
  Qed.

  Lemma can_read_fallback s hi : can_read (set_fallback s) hi.
  Proof. now left. Qed.

  Lemma readBytes_good a n s : never_fails E -> open_ok E -> 0 < n -> in_space E a n ->
    words_mapped p (s_mem s) a n -> can_read s (a + n) ->
    exists s' d, readBytes E a n s = (s', Ok d) /\ s_mem s' = s_mem s /\
      stored (s_mem s) a d /\ zlen d = n /\ forall hi, can_read s hi -> can_read s' hi.
  Proof.
    intros Hnf Ho Hn Hsp Hm Hc. rewrite readBytes_linux.
    assert (Hpt : forall s0, s_mem s0 = s_mem s ->
      exists d, readBytes_ptrace E a n s0 = (s0, Ok d) /\ stored (s_mem s) a d /\ zlen d = n).
    { intros s0 Hs0.
      destruct (readBytes_ptrace_spec E Hpid a n s0 (or_introl Hn) Hsp) as [[_ (bs & Hs & Hl & Hr)]|[Hnm _]].
      - rewrite Hs0 in Hs. eauto.
      - exfalso. apply Hnm. now rewrite Hs0. }
    destruct (s_fallback s) eqn:Eb.
    { destruct (Hpt s eq_refl) as (d & H1 & H2 & H3). exists s, d. auto. }
    destruct Hc as [Hc|[Hcl Hhi]]; [congruence|].
    assert (Hma : mapped (s_mem s) a n).
    { intros x Hx. pose proof (floor_word E x) as [A B]. fold p in A, B. fold W in A, B.
      apply (Hm x (x - x mod W) Hx); [split; [exact A|fold W; lia]|fold W; lia]. }
    rewrite procmem_unfold.
    assert (Hopen : exists s' d,
      (let s0 := set_file s FileOpen in
        if 2 ^ 63 <=? a then (s0, Err EOverflowError)
        else if a <? 0 then (s0, Err EProcessError)
        else match e_read E (s_mem s0) a n with
             | Err (EOSError _) => (s0, Err EProcessError)
             | Err EValueError => (s0, Err EProcessError)
             | Err e => (s0, Err e)
             | Ok data =>
                 if (zlen data =? 0) && negb (n =? 0)
                 then readBytes_ptrace E a n (set_fallback s0)
                 else (s0, Ok data)
             end) = (s', Ok d) /\ s_mem s' = s_mem s /\
      stored (s_mem s) a d /\ zlen d = n /\ forall hi, can_read s hi -> can_read s' hi).
    { cbv zeta. destruct Hsp as (Ha0 & _). replace (2 ^ 63 <=? a) with false by blia.
      replace (a <? 0) with false by blia. cbn [s_mem set_file].
      assert (Hn0 : 0 <= n) by lia. destruct (Hnf (s_mem s) a n Ha0 Hn0 Hma) as [d0 Hd0]. rewrite Hd0.
      destruct (Hf _ _ _ _ Ha0 Hn0 Hd0) as (Hst & Hle & Hfull).
      destruct (zlen d0 =? 0) eqn:E0; cbn [andb].
      - replace (n =? 0) with false by blia. cbn [negb].
        destruct (Hpt (set_fallback (set_file s FileOpen)) eq_refl) as (d & H1 & H2 & H3).
        exists (set_fallback (set_file s FileOpen)), d. repeat split; auto. intros; apply can_read_fallback.
      - destruct (Hfull Hma) as [->|Hl]; [discriminate|].
        exists (set_file s FileOpen), d0. repeat split; auto.
        intros hi [H|[_ H]]; [congruence|]. right. split; [discriminate|exact H]. }
    cbv zeta in *.
    destruct (s_file s) eqn:Ef; [|destruct (e_open E); exact Hopen|congruence].
    destruct Ho as [Ho|[e Ho]]; rewrite Ho; [exact Hopen|].
    destruct (Hpt (set_fallback s) eq_refl) as (d & H1 & H2 & H3).
    exists (set_fallback s), d. repeat split; auto. intros; apply can_read_fallback.
  Qed.

  (** ** Which path is used *)
  Lemma fallback_permanent a n s : s_fallback s = true ->
    readBytes E a n s = readBytes_ptrace E a n s /\ s_fallback (fst (readBytes E a n s)) = true.
  Proof.
    intros H. rewrite readBytes_linux, H. split; [reflexivity|]. now rewrite readBytes_ptrace_state.
  Qed.
  Lemma fallback_switch a n s : s_fallback s = false -> s_fallback (fst (readBytes E a n s)) = true ->
    (s_file s = FileNone /\ exists e, e_open E = Err (EOSError e)) \/
    (n <> 0 /\ e_read E (s_mem s) a n = Ok []).
  Proof.
    intros H. rewrite readBytes_linux, H, procmem_unfold. cbv zeta.
    assert (Hopen : s_fallback (fst (
        if 2 ^ 63 <=? a then (set_file s FileOpen, @Err (list byte) EOverflowError)
        else if a <? 0 then (set_file s FileOpen, Err EProcessError)
        else match e_read E (s_mem (set_file s FileOpen)) a n with
             | Err (EOSError _) => (set_file s FileOpen, Err EProcessError)
             | Err EValueError => (set_file s FileOpen, Err EProcessError)
             | Err e => (set_file s FileOpen, Err e)
             | Ok data =>
                 if (zlen data =? 0) && negb (n =? 0)
                 then readBytes_ptrace E a n (set_fallback (set_file s FileOpen))
                 else (set_file s FileOpen, Ok data)
             end)) = true -> n <> 0 /\ e_read E (s_mem s) a n = Ok []).
    { cbn [s_mem set_file]. destruct (2 ^ 63 <=? a); [cbn; congruence|]. destruct (a <? 0); [cbn; congruence|].
      destruct (e_read E (s_mem s) a n) as [d|[]]; try (cbn; congruence).
      destruct (zlen d =? 0) eqn:E0; cbn [andb]; [|cbn; congruence].
      destruct (n =? 0) eqn:E1; cbn [negb]; [cbn; congruence|]. intros _. split; [blia|].
      zb. destruct d; [reflexivity|]. rewrite zlen_cons in E0. pose proof (zlen_nonneg d). lia. }
    destruct (s_file s) eqn:Ef.
    - destruct (e_open E) as [u|[]] eqn:Eo; try (cbn; congruence); [auto|]. intros _. left. eauto.
    - destruct (e_open E); auto.
    - destruct (e_open E); cbn; congruence.
  Qed.

  (** ** Writes *)
  Lemma kmem_apply_poke k a bs : zlen bs = W -> poke_ok p k a = true ->
    written k (kmem_apply p (e_pid E) k (Req 4 (e_pid E) a (stored_word p bs))) a bs.
  Proof.
    intros Hl Hk. unfold kmem_apply. cbn [rq_pid rq_command rq_arg1 rq_arg2].
    rewrite Z.eqb_refl, Hk. cbn [Z.eqb Pos.eqb orb andb]. fold W. split; [|reflexivity].
    cbn [k_byte]. intros x.
    destruct (a <=? x) eqn:E1; cbn [andb]; [|reflexivity].
    destruct (x <? a + W) eqn:E2.
    - destruct (nth_error bs (Z.to_nat (x - a))) as [b|] eqn:En.
      + f_equal. replace (x - a) with (Z.of_nat (Z.to_nat (x - a))) by blia.
        apply word_byte_stored; auto.
      + apply nth_error_None in En. rewrite zlen_nat in Hl. zb. lia.
    - assert (nth_error bs (Z.to_nat (x - a)) = None) as ->.
      { apply nth_error_None. rewrite zlen_nat in Hl. zb. lia. }
      reflexivity.
  Qed.

  Lemma writeWord_cases a bs s : (W | a) -> in_space E a W -> zlen bs = W ->
    (exists k', written (s_mem s) k' a bs /\
       writeWord E a (stored_word p bs) s = (set_mem s k', Ok tt)) \/
    ((e_be E = Ctypes -> poke_ok p (s_mem s) a = false) /\
     exists e, writeWord E a (stored_word p bs) s = (s, Err e)).
  Proof.
    intros Hd Hsp Hl. unfold writeWord, run_call, ptrace_poketext, poke. fold p.
    rewrite aligned_mod by assumption. cbn [negb].
    pose proof (word_size_pos p) as HW. fold W in HW.
    pose proof (stored_word_range p bs Hl) as Hr.
    destruct (c_args (e_be E) p PTRACE_POKETEXT (e_pid E) a (stored_word p bs)) as [rq|e] eqn:Ec.
    - assert (rq = the_request p PTRACE_POKETEXT (e_pid E) a (stored_word p bs)) as ->.
      { unfold c_args in Ec. destruct (e_be E); [now injection Ec|].
        destruct (_ || _) in Ec; [discriminate|]. now injection Ec. }
      assert (Hrq : the_request p PTRACE_POKETEXT (e_pid E) a (stored_word p bs) = Req 4 (e_pid E) a (stored_word p bs)).
      { eapply the_request_space with (n := W); auto; unfold PTRACE_POKETEXT; lia. }
      assert (Hans : kmem_answer p (e_pid E) (s_mem s) (Req 4 (e_pid E) a (stored_word p bs))
                     = if poke_ok p (s_mem s) a then KOk 0 else KErr EIO).
      { unfold kmem_answer. cbn [rq_pid rq_command rq_arg1]. rewrite Z.eqb_refl. reflexivity. }
      rewrite ptrace_result; auto.
      + rewrite Hrq, Hans. unfold ignore. cbn [fst snd fold_left].
        destruct (poke_ok p (s_mem s) a) eqn:Ep; cbn [expected].
        * left. eexists. split; [apply kmem_apply_poke; assumption|reflexivity].
        * right. split; [reflexivity|].
          assert (kmem_apply p (e_pid E) (s_mem s) (Req 4 (e_pid E) a (stored_word p bs)) = s_mem s) as ->.
          { unfold kmem_apply. cbn [rq_arg1]. rewrite Ep, andb_false_r. reflexivity. }
          rewrite set_mem_same. eauto.
      + unfold PTRACE_POKETEXT; lia.
      + rewrite Hrq, Hans. destruct (poke_ok p (s_mem s) a); cbn [possible_answer].
        * rewrite wbits_eq. split; [destruct (wbits_cases p) as [[_ ->]|[_ ->]]; lia|].
          right. destruct (wbits_cases p) as [[_ ->]|[_ ->]]; lia.
        * discriminate.
    - right. split.
      + intros Hct. rewrite Hct in Ec. discriminate.
      + unfold ptrace. rewrite Ec. cbn [ignore fst snd fold_left]. rewrite set_mem_same. eauto.
  Qed.

  Definition words_ok (k : kmem) (a n : Z) : Prop := words_mapped p k a n /\ words_pokable p k a n.

  Lemma poke_ok_words k a n : (W | a) -> 0 < n -> words_ok k a n -> poke_ok p k a = true.
  Proof.
    intros Hd Hn [Hm Hp]. pose proof (word_size_pos p) as HW. fold W in HW.
    unfold poke_ok. apply forallb_forall. intros i Hi. apply zrange_In in Hi.
    assert (Hw : word_of p a a) by (split; [exact Hd|fold W; lia]).
    assert (k_byte k (a + i) <> None) by (apply (Hm a a); [lia|exact Hw|lia]).
    assert (k_pokable k (a + i) = true) by (apply (Hp a a); [lia|exact Hw|lia]).
    destruct (k_byte k (a + i)); congruence.
  Qed.
  Lemma words_ok_written k k' a0 d a n : written k k' a0 d -> words_ok k a n -> words_ok k' a n.
  Proof.
    intros Hw [Hm Hp]. split.
    - intros x w Hx Hxw y Hy. eapply written_mapped; [exact Hw|]. eapply Hm; eauto.
    - intros x w Hx Hxw y Hy. destruct Hw as [_ ->]. eapply Hp; eauto.
  Qed.
  Lemma words_ok_sub k a n a' n' : a <= a' -> a' + n' <= a + n -> words_ok k a n -> words_ok k a' n'.
  Proof.
    intros H1 H2 [Hm Hp]. split; intros x w Hx; [apply Hm|apply Hp]; lia.
  Qed.

  Lemma divide_step a : (W | a) -> (W | a + W).
  Proof. intros H. apply Z.divide_add_r; [assumption|apply Z.divide_refl]. Qed.

  Lemma wloop_spec fuel : forall bytes a s,
    (W | a) -> in_space E a (zlen bytes) -> (List.length bytes < fuel)%nat ->
    exists m k' r,
      writeBytes_loop E fuel a bytes s = (set_mem s k', r) /\
      (m <= List.length bytes)%nat /\ written (s_mem s) k' a (firstn m bytes) /\
      match r with
      | Ok (a', rest) => a' = a + Z.of_nat m /\ rest = skipn m bytes /\ zlen rest < W /\ (W | a')
      | Err e => e <> EDiverges /\ ~ (e_be E = Ctypes /\ words_ok (s_mem s) a (zlen bytes))
      end.
  Proof.
    induction fuel as [|fuel IH]; intros bytes a s Hd Hsp Hfu; [lia|].
    pose proof (word_size_pos p) as HW. fold W in HW.
    cbn [writeBytes_loop]. fold p. fold W. destruct (W <=? zlen bytes) eqn:El.
    - zb. rewrite pyslice_to, pyslice_from by lia.
      set (hd := firstn (Z.to_nat W) bytes). set (tl := skipn (Z.to_nat W) bytes).
      assert (Hhd : zlen hd = W) by (unfold hd; rewrite zlen_firstn; lia).
      assert (Htl : zlen tl = zlen bytes - W) by (unfold tl; rewrite zlen_skipn; lia).
      unfold mbind at 1, lift at 1. rewrite bytes2word_stored by exact Hhd.
      assert (Hspw : in_space E a W) by (eapply in_space_sub; [exact Hsp|lia|lia]).
      unfold mbind at 1.
      destruct (writeWord_cases a hd s Hd Hspw Hhd) as [(k1 & Hw & Hr)|[Hno [e He]]].
      + rewrite Hr.
        destruct (IH tl (a + W) (set_mem s k1) (divide_step a Hd)) as (m & k' & r & Hrun & Hm & Hwr & Hres).
        * eapply in_space_sub; [exact Hsp|lia|lia].
        * rewrite !zlen_nat in *. lia.
        * exists (Z.to_nat W + m)%nat, k', r. cbn [s_mem set_mem] in *. rewrite Hrun.
          assert (Hfn : firstn (Z.to_nat W + m) bytes = hd ++ firstn m tl).
          { rewrite <- (firstn_skipn (Z.to_nat W) bytes) at 1. fold hd tl.
            rewrite firstn_app. replace (List.length hd) with (Z.to_nat W) by (rewrite zlen_nat in Hhd; lia).
            replace (Z.to_nat W + m - Z.to_nat W)%nat with m by lia.
            rewrite firstn_all2 by (rewrite zlen_nat in Hhd; lia). reflexivity. }
          repeat split.
          -- rewrite !zlen_nat in *. lia.
          -- rewrite Hfn. eapply written_app; [exact Hw|]. rewrite Hhd. exact Hwr.
          -- intros x. destruct Hwr as [_ ->]. apply Hw.
          -- destruct r as [[a' rest]|e].
             ++ destruct Hres as (Ha' & Hrest & Hlt & Hd'). repeat split; auto; [lia|].
                rewrite Hrest. unfold tl. rewrite skipn_skipn. reflexivity.
             ++ destruct Hres as [Hdv Hbad]. split; [exact Hdv|]. intros [Hct Hok]. apply Hbad. split; [exact Hct|].
                eapply words_ok_written; [exact Hw|]. eapply words_ok_sub; [| |exact Hok]; lia.
      + rewrite He. exists O, (s_mem s), (Err e). rewrite set_mem_same. repeat split; try lia; try (apply written_nil).
        * intros ->. revert He. unfold writeWord, run_call, ptrace_poketext, poke.
          destruct (negb _); [discriminate|]. unfold ptrace. destruct (c_args _ _ _ _ _ _) as [rq|e0] eqn:Ec.
          -- destruct (libc_ptrace _ _ _ _ _). unfold ignore; cbn. destruct (ulong2long _ _ =? -1); discriminate.
          -- unfold c_args in Ec. destruct (e_be E); [discriminate|]. destruct (_ || _) in Ec; [|discriminate].
             injection Ec as <-. discriminate.
        * intros [Hct Hok]. specialize (Hno Hct).
          assert (poke_ok p (s_mem s) a = true) by (eapply poke_ok_words; [exact Hd| |exact Hok]; lia). congruence.
    - zb. exists O, (s_mem s), (Ok (a, bytes)). rewrite set_mem_same. repeat split; auto; try lia; apply written_nil.
  Qed.

  Lemma bytes2word_cases bs : (zlen bs = W /\ bytes2word p bs = Ok (stored_word p bs)) \/
    (zlen bs <> W /\ bytes2word p bs = Err EStructError).
  Proof.
    destruct (Z.eq_dec (zlen bs) W) as [H|H]; [left|right]; split; auto.
    - now apply bytes2word_stored.
    - now apply bytes2word_bad.
  Qed.

  Definition reads_work (s : pstate) (hi : Z) : Prop := never_fails E /\ open_ok E /\ can_read s hi.

  Lemma firstn_all_len {A} (l : list A) n : (List.length l <= n)%nat -> firstn n l = l.
  Proof. apply firstn_all2. Qed.

  Definition outcome (s s' : pstate) (a : Z) (bytes : list byte) (r : res unit) (ok : Prop) : Prop :=
    exists m, (m <= List.length bytes)%nat /\
      written (s_mem s) (s_mem s') a (firstn m bytes) /\
      (r = Ok tt -> m = List.length bytes) /\ (ok -> r = Ok tt).

  (** the word around the end of the data *)
  Lemma space_word_up a n w : in_space E a n -> (W | w) -> a <= w < a + n -> in_space E w W.
  Proof. intros Hsp Hd Hw. eapply space_word; eauto. destruct Hsp. lia. Qed.

  Lemma waligned_spec bytes a s s' r :
    (W | a) -> in_space E a (zlen bytes) -> writeBytes_aligned E a bytes s = (s', r) ->
    outcome s s' a bytes r (e_be E = Ctypes /\ words_ok (s_mem s) a (zlen bytes) /\
      (exists hi, reads_work s hi /\ forall w, (W | w) -> a <= w < a + zlen bytes -> w + W <= hi)).
  Proof.
    intros Hd Hsp H. unfold writeBytes_aligned in H. unfold mbind at 1 in H.
    pose proof (word_size_pos p) as HW. fold W in HW.
    destruct (wloop_spec (S (List.length bytes)) bytes a s Hd Hsp ltac:(lia)) as (m & k1 & r1 & Hrun & Hm & Hwr & Hres).
    rewrite Hrun in H. destruct r1 as [[a1 rest]|e].
    2:{ injection H as <- <-. exists m. repeat split; auto; try (apply Hwr); try discriminate.
        intros (Hct & Hok & _). destruct Hres as [_ Hbad]. exfalso. apply Hbad. auto. }
    destruct Hres as (-> & -> & Hlt & Hd1).
    set (rest := skipn m bytes) in *. set (a1 := a + Z.of_nat m) in *.
    assert (Hrl : zlen rest = zlen bytes - Z.of_nat m) by (unfold rest; rewrite zlen_skipn; rewrite zlen_nat; lia).
    destruct (zlen rest =? 0) eqn:E0.
    { injection H as <- <-. zb. exists m. repeat split; auto; try (apply Hwr). intros _. rewrite (zlen_nat bytes) in Hrl. lia. }
    zb. pose proof (zlen_nonneg rest) as Hnn.
    assert (Hsp1 : in_space E a1 W).
    { eapply space_word_up; [exact Hsp|exact Hd1|lia]. }
    fold p in H. fold W in H. unfold mbind at 1 in H. set (s1 := set_mem s k1) in *.
    pose proof (readBytes_mem E a1 W s1) as Hmem.
    destruct (readBytes E a1 W s1) as [s2 [word|e]] eqn:Er; cbn [fst] in Hmem.
    2:{ injection H as <- <-. exists m. unfold s1 in Hmem. cbn in Hmem.
        repeat split; auto; try (rewrite Hmem; apply Hwr); try discriminate.
        intros (Hct & Hok & hi & (Hnf & Ho & Hc) & Hhi). exfalso.
        destruct (readBytes_good a1 W s1 Hnf Ho HW Hsp1) as (s3 & d & Hg & _); try congruence.
        - assert (words_ok k1 a1 W) as [Hx _]; [|exact Hx].
          eapply words_ok_written; [exact Hwr|].
          split; intros x w Hx Hxw.
          + apply (proj1 Hok a1 w); [lia|]. destruct Hxw as [H1 H2]. fold W in H2.
            assert (w = a1) as -> by (apply (word_unique W w a1 x); auto; lia). split; [exact Hd1|fold W; lia].
          + apply (proj2 Hok a1 w); [lia|]. destruct Hxw as [H1 H2]. fold W in H2.
            assert (w = a1) as -> by (apply (word_unique W w a1 x); auto; lia). split; [exact Hd1|fold W; lia].
        - specialize (Hhi a1 Hd1 ltac:(lia)). destruct Hc as [Hc|[Hc1 Hc2]]; [left; exact Hc|right]. split; [exact Hc1|lia]. }
    destruct (readBytes_sound a1 W s1 s2 word HW Hsp1 Er) as [Hst Hwl].
    rewrite pyslice_from in H by lia.
    set (nw := rest ++ skipn (Z.to_nat (zlen rest)) word) in *.
    unfold mbind, lift in H.
    destruct (bytes2word_cases nw) as [[Hnl Hb]|[Hnl Hb]]; rewrite Hb in H.
    - destruct (writeWord_cases a1 nw s2 Hd1 Hsp1 Hnl) as [(k3 & Hw & Hr)|[Hno [e He]]].
      + rewrite Hr in H. injection H as <- <-.
        exists (List.length bytes). split; [lia|]. split; [|auto].
        rewrite firstn_all2 by lia. rewrite <- (firstn_skipn m bytes). fold rest.
        eapply written_app; [exact Hwr|]. rewrite zlen_firstn, Z.min_l by (rewrite zlen_nat; lia). fold a1.
        rewrite Hmem in Hw. change (s_mem s1) with k1 in Hw. cbn [s_mem set_mem].
        eapply written_suf; [|exact Hw].
        change (s_mem s1) with k1 in Hst.
        destruct (Z.le_gt_cases (zlen rest) (zlen word)) as [Hle|Hgt].
        * replace (a1 + zlen rest) with (a1 + Z.of_nat (Z.to_nat (zlen rest))) by lia.
          apply stored_skipn; [rewrite (zlen_nat word) in Hle; lia|exact Hst].
        * rewrite skipn_all2 by (rewrite (zlen_nat word) in Hgt; lia). intros [|i] b Hi; discriminate.
      + rewrite He in H. injection H as <- <-. exists m. change (s_mem s1) with k1 in Hmem. rewrite Hmem.
        repeat split; auto; try (apply Hwr); try discriminate.
        intros (Hct & Hok & _). exfalso. specialize (Hno Hct). rewrite Hmem in Hno.
        assert (poke_ok p k1 a1 = true); [|congruence].
        eapply poke_ok_words with (n := zlen rest); [exact Hd1|lia|].
        eapply words_ok_written; [exact Hwr|]. eapply words_ok_sub; [| |exact Hok]; lia.
    - injection H as <- <-. exists m. change (s_mem s1) with k1 in Hmem. rewrite Hmem.
      repeat split; auto; try (apply Hwr); try discriminate.
      intros (Hct & Hok & hi & (Hnf & Ho & Hc) & Hhi). exfalso.
      destruct (readBytes_good a1 W s1 Hnf Ho HW Hsp1) as (s3 & d & Hg & _ & _ & Hdl & _).
      + assert (words_ok k1 a1 W) as [Hx _]; [|exact Hx].
        eapply words_ok_written; [exact Hwr|].
        split; intros x w Hx Hxw.
        * apply (proj1 Hok a1 w); [lia|]. destruct Hxw as [H1 H2]. fold W in H2.
          assert (w = a1) as -> by (apply (word_unique W w a1 x); auto; lia). split; [exact Hd1|fold W; lia].
        * apply (proj2 Hok a1 w); [lia|]. destruct Hxw as [H1 H2]. fold W in H2.
          assert (w = a1) as -> by (apply (word_unique W w a1 x); auto; lia). split; [exact Hd1|fold W; lia].
      + specialize (Hhi a1 Hd1 ltac:(lia)). destruct Hc as [Hc|[Hc1 Hc2]]; [left; exact Hc|right]. split; [exact Hc1|lia].
      + rewrite Er in Hg. injection Hg as _ <-. apply Hnl. unfold nw. rewrite zlen_app, zlen_skipn. lia.
  Qed.

  Lemma writeBytes_linux a bytes s : writeBytes E a bytes s = writeBytes_ptrace E a bytes s.
  Proof. unfold writeBytes. fold p. destruct (linux_flags p Hos) as [-> _]. reflexivity. Qed.

  Lemma writeBytes_spec a bytes s s' r :
    in_space E a (zlen bytes) -> writeBytes E a bytes s = (s', r) ->
    outcome s s' a bytes r (e_be E = Ctypes /\ words_ok (s_mem s) a (zlen bytes) /\
      (0 < zlen bytes \/ (W | a)) /\
      (exists hi, reads_work s hi /\ forall w, (W | w) -> a - W < w < a + zlen bytes -> w + W <= hi)).
  Proof.
    intros Hsp H. rewrite writeBytes_linux in H. unfold writeBytes_ptrace in H. fold p in H. fold W in H.
    pose proof (word_size_pos p) as HW. fold W in HW.
    pose proof (floor_word E a) as [Hd Hfl]. fold p in Hd, Hfl. fold W in Hd, Hfl.
    pose proof (Z.mod_pos_bound a W HW) as Hmod. pose proof (zlen_nonneg bytes) as Hbl.
    destruct (a mod W =? 0) eqn:E0; cbn [negb] in H.
    { zb. rewrite E0, Z.sub_0_r in Hd.
      destruct (waligned_spec bytes a s s' r Hd Hsp H) as (m & H1 & H2 & H3 & H4).
      exists m. repeat split; auto; try (apply H2). intros (Hct & Hok & _ & hi & Hrw & Hhi). apply H4.
      split; [exact Hct|]. split; [exact Hok|]. exists hi. split; [exact Hrw|]. intros w Hw Hlt. apply Hhi; auto; lia. }
    zb. set (off := a mod W) in *. set (w0 := a - off) in *.
    assert (Hw0 : 0 <= w0).
    { destruct Hsp as [H0 _]. assert (off <= a) by (apply Z.mod_le; lia). lia. }
    assert (Hsp0 : in_space E w0 W) by (eapply space_word; [exact Hsp|exact Hd|lia]).
    unfold mbind at 1 in H.
    pose proof (readBytes_mem E w0 W s) as Hmem.
    assert (Hgood : (e_be E = Ctypes /\ words_ok (s_mem s) a (zlen bytes) /\ (0 < zlen bytes \/ (W | a)) /\
      (exists hi, reads_work s hi /\ forall w, (W | w) -> a - W < w < a + zlen bytes -> w + W <= hi)) ->
      0 < zlen bytes /\ words_ok (s_mem s) w0 W /\ exists s3 d, readBytes E w0 W s = (s3, Ok d) /\ zlen d = W /\
        (forall hi, can_read s hi -> can_read s3 hi)).
    { intros (Hct & Hok & Hne & hi & (Hnf & Ho & Hc) & Hhi).
      destruct Hne as [Hne|Hda]; [|exfalso; apply E0; apply Z.mod_divide; [lia|exact Hda]].
      assert (words_ok (s_mem s) w0 W) as Hok0.
      { split; intros x w Hx [H1 H2]; fold W in H2;
          (assert (w = w0) as -> by (apply (word_unique W w w0 x); auto; lia)).
        - apply (proj1 Hok a w0); [lia|]. split; [exact Hd|fold W; lia].
        - apply (proj2 Hok a w0); [lia|]. split; [exact Hd|fold W; lia]. }
      split; [exact Hne|]. split; [exact Hok0|].
      destruct (readBytes_good w0 W s Hnf Ho HW Hsp0 (proj1 Hok0)) as (s3 & d & Hg & _ & _ & Hdl & Hcr).
      - specialize (Hhi w0 Hd ltac:(lia)). destruct Hc as [Hc|[Hc1 Hc2]]; [left; exact Hc|right]. split; [exact Hc1|lia].
      - eauto 10. }
    destruct (readBytes E w0 W s) as [s2 [word|e]] eqn:Er; cbn [fst] in Hmem.
    2:{ injection H as <- <-. exists O. rewrite Hmem. repeat split; try lia; try apply written_nil; try discriminate.
        intros Hg. apply Hgood in Hg as (_ & _ & s3 & d & Hg & _). discriminate. }
    destruct (readBytes_sound w0 W s s2 word HW Hsp0 Er) as [Hst Hwl].
    set (size := if zlen bytes <? W - off then zlen bytes else W - off).
    set (nw := if zlen bytes <? W - off
               then pyslice None (Some off) word ++ pyslice None (Some (zlen bytes)) bytes ++ pyslice (Some (off + zlen bytes)) None word
               else pyslice None (Some off) word ++ pyslice None (Some (W - off)) bytes).
    assert (Hpair : (if zlen bytes <? W - off
         then (zlen bytes, pyslice None (Some off) word ++ pyslice None (Some (zlen bytes)) bytes ++ pyslice (Some (off + zlen bytes)) None word)
         else (W - off, pyslice None (Some off) word ++ pyslice None (Some (W - off)) bytes)) = (size, nw)).
    { unfold size, nw. destruct (zlen bytes <? W - off); reflexivity. }
    cbv zeta in H. rewrite Hpair in H. clear Hpair.
    assert (Hsz : 0 <= size <= zlen bytes /\ size <= W - off /\ (size < zlen bytes -> size = W - off)).
    { unfold size. destruct (zlen bytes <? W - off) eqn:El; zb; lia. }
    assert (Hnw : exists suf, nw = firstn (Z.to_nat off) word ++ firstn (Z.to_nat size) bytes ++ suf /\
                  (off <= zlen word -> stored (s_mem s) (w0 + off + size) suf) /\
                  (zlen word = W -> zlen nw = W) /\ (zlen nw = W -> off <= zlen word)).
    { unfold nw, size. destruct (zlen bytes <? W - off) eqn:El; zb.
      - exists (skipn (Z.to_nat (off + zlen bytes)) word).
        rewrite !pyslice_to, pyslice_from by lia. split; [reflexivity|]. split; [|split].
        + intros Hle. destruct (Z.le_gt_cases (off + zlen bytes) (zlen word)) as [Hle'|Hgt].
          * replace (w0 + off + zlen bytes) with (w0 + Z.of_nat (Z.to_nat (off + zlen bytes))) by lia.
            apply stored_skipn; [rewrite (zlen_nat word) in Hle'; lia|exact Hst].
          * rewrite skipn_all2 by (rewrite (zlen_nat word) in Hgt; lia). intros [|i] b Hi; discriminate.
        + intros Hlw. rewrite !zlen_app, !zlen_firstn, zlen_skipn. lia.
        + rewrite !zlen_app, !zlen_firstn, zlen_skipn. pose proof (zlen_nonneg word). lia.
      - exists []. rewrite !pyslice_to by lia. rewrite app_nil_r. split; [reflexivity|]. split; [|split].
        + intros _ [|i] b Hi; discriminate.
        + intros Hlw. rewrite !zlen_app, !zlen_firstn. lia.
        + rewrite !zlen_app, !zlen_firstn. pose proof (zlen_nonneg word). lia. }
    destruct Hnw as (suf & Hnw & Hsuf & Hlen1 & Hlen2).
    unfold mbind at 1, lift at 1 in H. cbn [e_p] in H. fold p in H.
    destruct (bytes2word_cases nw) as [[Hnl Hb]|[Hnl Hb]]; rewrite Hb in H.
    2:{ injection H as <- <-. exists O. rewrite Hmem. repeat split; try lia; try apply written_nil; try discriminate.
        intros Hg. apply Hgood in Hg as (_ & _ & s3 & d & Hg & Hdl & _). exfalso. apply Hnl. apply Hlen1. congruence. }
    unfold mbind at 1 in H.
    destruct (writeWord_cases w0 nw s2 Hd Hsp0 Hnl) as [(k3 & Hw & Hr)|[Hno [e He]]].
    2:{ rewrite He in H. injection H as <- <-. exists O. rewrite Hmem. repeat split; try lia; try apply written_nil; try discriminate.
        intros Hg. pose proof Hg as (Hct & _). apply Hgood in Hg as (_ & Hok0 & _). exfalso.
        specialize (Hno Hct). rewrite Hmem in Hno.
        assert (poke_ok p (s_mem s) w0 = true); [|congruence]. eapply poke_ok_words; [exact Hd|exact HW|exact Hok0]. }
    rewrite Hr in H. rewrite Hmem in Hw.
    assert (Hw1 : written (s_mem s) k3 a (firstn (Z.to_nat size) bytes)).
    { specialize (Hlen2 Hnl). rewrite Hnw in Hw.
      replace a with (w0 + zlen (firstn (Z.to_nat off) word)) by (rewrite zlen_firstn; lia).
      eapply written_suf; [|eapply written_pre; [|exact Hw]].
      - replace (w0 + zlen (firstn (Z.to_nat off) word) + zlen (firstn (Z.to_nat size) bytes)) with (w0 + off + size)
          by (rewrite !zlen_firstn; lia). now apply Hsuf.
      - now apply stored_firstn. }
    rewrite pyslice_from in H by lia.
    set (rest := skipn (Z.to_nat size) bytes) in *.
    assert (Hrl : zlen rest = zlen bytes - size) by (unfold rest; rewrite zlen_skipn; lia).
    assert (Hsp1 : in_space E (w0 + W) (zlen rest)).
    { destruct (Z.eq_dec size (zlen bytes)) as [Heq|Hne].
      - destruct Hsp0 as (A & B & C). rewrite Hrl. repeat split; try lia. intros Hc. specialize (C Hc). lia.
      - eapply in_space_sub; [exact Hsp|lia|lia]. }
    destruct (waligned_spec rest (w0 + W) (set_mem s2 k3) s' r (divide_step w0 Hd) Hsp1 H) as (m & H1 & H2 & H3 & H4).
    cbn [s_mem set_mem] in H2, H4.
    exists (Z.to_nat size + m)%nat. split; [rewrite !zlen_nat in *; lia|]. split; [|split].
    - assert (Hfn : firstn (Z.to_nat size + m) bytes = firstn (Z.to_nat size) bytes ++ firstn m rest).
      { rewrite <- (firstn_skipn (Z.to_nat size) bytes) at 1. fold rest.
        assert (Hfl1 : List.length (firstn (Z.to_nat size) bytes) = Z.to_nat size) by (rewrite firstn_length; rewrite zlen_nat in *; lia).
        rewrite firstn_app, Hfl1. replace (Z.to_nat size + m - Z.to_nat size)%nat with m by lia.
        rewrite firstn_all2 by lia. reflexivity. }
      rewrite Hfn. eapply written_app; [exact Hw1|].
      destruct (Z.eq_dec size (zlen bytes)) as [Heq|Hne].
      + assert (m = O) as -> by (rewrite !zlen_nat in *; lia). cbn [firstn] in H2 |- *.
        eapply written_nil_any; exact H2.
      + rewrite zlen_firstn, Z.min_l by lia. replace (a + Z.of_nat (Z.to_nat size)) with (w0 + W) by lia. exact H2.
    - intros Hrr. specialize (H3 Hrr). rewrite !zlen_nat in *. lia.
    - intros Hg. pose proof Hg as (Hct & Hok & Hne & hi & (Hnf & Ho & Hc) & Hhi).
      apply Hgood in Hg as (Hpos & Hok0 & s3 & d & Hg & Hdl & Hcr). injection Hg as <- <-.
      apply H4. split; [exact Hct|]. split.
      + eapply words_ok_written; [exact Hw1|]. 
        destruct (Z.eq_dec size (zlen bytes)) as [Heq|Hne'].
        * split; intros x w Hx; lia.
        * eapply words_ok_sub; [| |exact Hok]; lia.
      + exists hi. split; [split; [exact Hnf|split; [exact Ho|]]|].
        * apply Hcr in Hc. exact Hc.
        * intros w Hw2 Hlt. apply Hhi; auto. destruct (Z.eq_dec size (zlen bytes)); lia.
  Qed.
End Linux.
