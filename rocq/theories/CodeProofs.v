(** * CodeProofs: whole instructions are disassembled, longer ones are not (C124). *)
From Coq Require Import ZArith List Ascii String Bool Lia.
From Verif Require Import PyBase PyFacts Platform TraceModel TraceSpec TraceProofs CodeSpec.
Import ListNotations.
Open Scope Z_scope.

Lemma from_length c a n : List.length (from c a n) = n.
Proof. revert a. induction n; intros a; cbn; [reflexivity|now rewrite IHn]. Qed.
Lemma from_app c a n k : from c a (n + k) = from c a n ++ from c (a + Z.of_nat n) k.
Proof.
  revert a. induction n as [|n IH]; intros a; [cbn; now rewrite Z.add_0_r|]. cbn [from Nat.add app]. rewrite IH.
  replace (a + 1 + Z.of_nat n) with (a + Z.of_nat (S n)) by lia. reflexivity.
Qed.
Lemma from_firstn c a n k : (k <= n)%nat -> firstn k (from c a n) = from c a k.
Proof. intros H. replace n with (k + (n - k))%nat by lia. rewrite from_app. rewrite <- (from_length c a k) at 1. now rewrite firstn_app, Nat.sub_diag, firstn_all, app_nil_r. Qed.
Lemma from_skipn c a n k : (k <= n)%nat -> skipn k (from c a n) = from c (a + Z.of_nat k) (n - k).
Proof. intros H. replace n with (k + (n - k))%nat at 1 by lia. rewrite from_app. rewrite <- (from_length c a k) at 1. now rewrite skipn_app, Nat.sub_diag, skipn_all. Qed.
Lemma from_same c c' a n : (forall x, a <= x < a + Z.of_nat n -> c x = c' x) -> from c a n = from c' a n.
Proof. revert a. induction n as [|n IH]; intros a H; [reflexivity|]. cbn. rewrite (H a) by lia. f_equal. apply IH. intros x Hx. apply H. lia. Qed.

Section Code.
  Context (one : isa) (decode : Z -> list byte -> list instruction) (Hw : well_formed one) (Hd : disassembles one decode).
  Lemma at_facts c a i : is_at one c a i -> in_address i = a /\ 1 <= in_size i /\ forall more, one a (from c a (Z.to_nat (in_size i)) ++ more) = Some i.
  Proof.
    intros (n & H). destruct (Hw _ _ _ H) as (Ha & Hs & Hm). unfold zlen in Hs. rewrite from_length in Hs.
    split; [exact Ha|]. split; [lia|]. intros more. specialize (Hm more). now rewrite from_firstn in Hm by lia.
  Qed.
  Lemma at_long c a i n : is_at one c a i -> in_size i <= Z.of_nat n -> one a (from c a n) = Some i.
  Proof.
    intros H Hn. destruct (at_facts _ _ _ H) as (_ & Hs & Hm). replace n with (Z.to_nat (in_size i) + (n - Z.to_nat (in_size i)))%nat by lia.
    rewrite from_app. apply Hm.
  Qed.
  Lemma at_one c a i j : is_at one c a i -> is_at one c a j -> i = j.
  Proof.
    intros Hi Hj. destruct (at_facts _ _ _ Hi) as (_ & Si & _). destruct (at_facts _ _ _ Hj) as (_ & Sj & _).
    pose proof (at_long _ _ _ (Z.to_nat (Z.max (in_size i) (in_size j))) Hi ltac:(lia)) as A.
    pose proof (at_long _ _ _ (Z.to_nat (Z.max (in_size i) (in_size j))) Hj ltac:(lia)) as B. congruence.
  Qed.
  (** *** One instruction *)
  Lemma first_iff c a i n : is_at one c a i -> 0 <= n -> (disassembleOne_code (Disassembler n decode) (from c a (Z.to_nat n)) a = Ok i <-> in_size i <= n).
  Proof.
    intros Hi Hn. unfold disassembleOne_code, disassemble_code. cbn [ds_decode]. split.
    - destruct (decode a (from c a (Z.to_nat n))) as [|j rest] eqn:E; [discriminate|]. intros H. injection H as ->.
      apply (proj2 Hd) in E. unfold zlen in E. rewrite from_length in E. lia.
    - intros Hs. now rewrite (proj1 Hd _ _ _ (at_long _ _ _ (Z.to_nat n) Hi ltac:(lia))).
  Qed.
  Lemma one_iff p c read ip a i m : MAX_INSTR_SIZE p = Some m -> readable c read -> is_at one c a i ->
    (snd (disassembleOne (host_disassembler p decode) read ip (Some a)) = Ok i <-> in_size i <= m).
  Proof.
    intros Hm Hr Hi. assert (0 <= m) as H0 by (unfold MAX_INSTR_SIZE in Hm; destruct (p_cpu p); try discriminate; injection Hm as <-; lia).
    unfold host_disassembler. rewrite Hm. unfold disassembleOne, lbind, lres, readBytes. cbn [ds_max]. rewrite (Hr a m H0). cbn [snd app].
    rewrite <- (first_iff c a i m Hi H0). destruct (disassembleOne_code _ _ _); cbn; tauto.
  Qed.
  (** Whatever is given instead ends inside the instruction. *)
  Lemma one_inside p c read ip a i m j : MAX_INSTR_SIZE p = Some m -> readable c read -> is_at one c a i -> m < in_size i ->
    snd (disassembleOne (host_disassembler p decode) read ip (Some a)) = Ok j -> in_size j < in_size i.
  Proof.
    intros Hm Hr Hi Hs. assert (0 <= m) as H0 by (unfold MAX_INSTR_SIZE in Hm; destruct (p_cpu p); try discriminate; injection Hm as <-; lia).
    unfold host_disassembler. rewrite Hm. unfold disassembleOne, lbind, lres, readBytes. cbn [ds_max]. rewrite (Hr a m H0). cbn [snd app].
    unfold disassembleOne_code, disassemble_code. cbn [ds_decode]. destruct (decode a (from c a (Z.to_nat m))) as [|k rest] eqn:E; [discriminate|]. intros H. cbn in H. injection H as ->.
    apply (proj2 Hd) in E. unfold zlen in E. rewrite from_length in E. lia.
  Qed.
  (** *** Several *)
  Lemma total_pos c l : forall a, are_at one c a l -> 0 <= total l.
  Proof.
    induction l as [|i l IH]; intros a Hl; [cbn; lia|]. inversion Hl as [|a' i' l' Hi Hl']; subst. destruct (at_facts _ _ _ Hi) as (_ & Hs & _).
    apply IH in Hl'. cbn [total fold_right]. fold (total l). lia.
  Qed.
  Lemma several c : forall l a n, are_at one c a l -> total l <= Z.of_nat n ->
    decode a (from c a n) = l ++ decode (a + total l) (from c (a + total l) (n - Z.to_nat (total l))).
  Proof.
    induction l as [|i l IH]; intros a n Hl Hn; inversion Hl as [|a' i' l' Hi Hl']; subst.
    - cbn. now rewrite Z.add_0_r, Nat.sub_0_r.
    - destruct (at_facts _ _ _ Hi) as (_ & Hs & _). cbn [total fold_right] in *. fold (total l) in *.
      pose proof (total_pos _ _ _ Hl') as Ht.
      rewrite (proj1 Hd _ _ _ (at_long _ _ _ n Hi ltac:(lia))). cbn [app]. f_equal. rewrite from_skipn by lia. rewrite Z2Nat.id by lia.
      rewrite (IH _ _ Hl') by lia. f_equal. replace (a + in_size i + total l) with (a + (in_size i + total l)) by lia.
      replace (n - Z.to_nat (in_size i) - Z.to_nat (total l))%nat with (n - Z.to_nat (in_size i + total l))%nat by lia. reflexivity.
  Qed.
  (** A number of instructions *)
  Lemma listed_count p c read ip a l nb m : MAX_INSTR_SIZE p = Some m -> readable c read -> are_at one c a l -> zlen l = match nb with Some n => n | None => 10 end -> l <> [] ->
    total l <= zlen l * m -> snd (disassemble (host_disassembler p decode) read ip (Some a) None nb) = Ok l.
  Proof.
    intros Hm Hr Hl Hn Hne Ht. assert (0 <= m) as H0 by (unfold MAX_INSTR_SIZE in Hm; destruct (p_cpu p); try discriminate; injection Hm as <-; lia).
    unfold host_disassembler. rewrite Hm. unfold disassemble, lbind, lres, lret, readBytes. cbn [ds_max]. unfold DEFAULT_NB_INSTR. rewrite <- Hn.
    unfold zlen in *. rewrite Hr by lia. cbn [snd app]. unfold disassemble_code. cbn [ds_decode].
    rewrite (several c l a) by (auto; lia). destruct l as [|i l]; [easy|].
    destruct (Z.of_nat (List.length (i :: l)) =? 0) eqn:E; [apply Z.eqb_eq in E; cbn in E; lia|].
    rewrite firstn_app. replace (Z.to_nat (Z.max 1 (Z.of_nat (List.length (i :: l))))) with (List.length (i :: l)) by (cbn [List.length]; lia).
    now rewrite firstn_all, Nat.sub_diag, firstn_O, app_nil_r.
  Qed.
  (** A range: the instructions that lie in it, then what is made of the rest *)
  Lemma listed_range p c read ip a l stop m : MAX_INSTR_SIZE p = Some m -> readable c read -> are_at one c a l -> a + total l <= stop + 1 -> a <= stop ->
    exists rest, snd (disassemble (host_disassembler p decode) read ip (Some a) (Some stop) None) = Ok (l ++ rest) /\
      forall i, is_at one c (a + total l) i -> stop + 1 < a + total l + in_size i -> hd_error rest <> Some i.
  Proof.
    intros Hm Hr Hl Hs Ha. pose proof (total_pos _ _ _ Hl) as H0.
    unfold host_disassembler. rewrite Hm. unfold disassemble, lbind, lres, lret, readBytes. cbn [ds_max].
    rewrite Hr by lia. cbn [snd app]. unfold disassemble_code. cbn [ds_decode]. rewrite (several c l a) by (auto; lia).
    eexists. split; [reflexivity|]. intros i Hi Hlong. destruct (decode _ _) as [|j rest] eqn:E; [discriminate|]. cbn. intros H. injection H as ->.
    apply (proj2 Hd) in E. unfold zlen in E. rewrite from_length in E. lia.
  Qed.
  (** *** With breakpoints *)
  Lemma breakpoint_iff D c a i old : ds_decode D = decode -> is_at one c a i -> old = from c a (List.length old) ->
    (disassembleOne_code D old a = Ok i <-> in_size i <= zlen old).
  Proof.
    intros HD Hi Ho. destruct D as [m d]. cbn in HD. subst d. rewrite Ho at 1. pose proof (first_iff c a i (zlen old) Hi ltac:(unfold zlen; lia)) as H. unfold zlen in *. rewrite Nat2Z.id in H. exact H.
  Qed.
  Lemma bp_shown p c m read bps D ip stop : ds_decode D = decode -> 0 <= ds_max D -> has_breakpoints c m bps -> readable m read ->
    forall n a l, listing one c stop n a l -> Forall (legible (ds_max D) bps) l ->
    snd (bp_lines p (Some D) read bps D n ip stop a) = Ok tt /\
    lines_of (fst (bp_lines p (Some D) read bps D n ip stop a)) =
      map (fun i => instr_line p ip i ++ match dget Z.eqb (in_address i) bps with Some _ => T "     * BREAKPOINT *" | None => [] end) l.
  Proof.
    intros HD H0 [Hold Hm] Hr.
    assert (forall a i, is_at one c a i -> legible (ds_max D) bps i ->
      exists w, match dget Z.eqb a bps with Some bytes => lres (disassembleOne_code D bytes a) | None => disassembleOne (Some D) read (Err EUndefined) (Some a) end = (w, Ok i) /\ lines_of w = []) as Hone.
    { intros a i Hi Hleg. destruct (at_facts _ _ _ Hi) as (Ha & Hs & Hmore). unfold legible in Hleg. rewrite Ha in Hleg.
      destruct (dget Z.eqb a bps) as [old|] eqn:E.
      - exists []. split; [|reflexivity]. unfold lres. f_equal. apply (breakpoint_iff D c a i old HD Hi (Hold _ _ E)). exact Hleg.
      - destruct Hleg as [Hsize Hclear]. exists [Read a (ds_max D)]. split; [|reflexivity]. unfold disassembleOne, lbind, lres, readBytes. rewrite Hr by lia. cbn [app]. f_equal.
        unfold disassembleOne_code, disassemble_code. rewrite HD.
        replace (Z.to_nat (ds_max D)) with (Z.to_nat (in_size i) + (Z.to_nat (ds_max D) - Z.to_nat (in_size i)))%nat by lia.
        rewrite from_app. rewrite (from_same m c) by (intros x Hx; apply Hm, Hclear; lia). now rewrite (proj1 Hd _ _ _ (Hmore _)). }
    assert (forall a, reaches stop a <-> match stop with Some s => s <=? a | None => false end = true) as Hre.
    { intros a. unfold reaches. destruct stop as [s|]; split; try discriminate; [intros (s' & H & Hs); injection H as <-; now apply Z.leb_le|intros H; exists s; split; [reflexivity|now apply Z.leb_le]|intros (s' & H & _); discriminate]. }
    induction 1 as [a|n a i Hi Hs|n a i l Hi Hs Hl IH]; intros Hleg; [split; reflexivity|..]; inversion Hleg as [|i' l' Hleg1 Hleg2]; subst;
      destruct (Hone a i Hi Hleg1) as (w & Hw1 & Hw2); destruct (at_facts _ _ _ Hi) as (Ha & _); cbn [bp_lines]; rewrite Hw1; cbn [lbind log app].
    - apply Hre in Hs. rewrite Hs. cbn [lret fst snd]. split; [reflexivity|]. unfold lines_of in *. rewrite flat_map_app, Hw2. cbn. now rewrite Ha.
    - destruct (match stop with Some s => s <=? a + in_size i | None => false end) eqn:E; [exfalso; apply Hs, Hre; exact E|].
      destruct (IH Hleg2) as [IH1 IH2]. destruct (bp_lines _ _ _ _ _ n ip stop (a + in_size i)) as [w' r']. cbn [fst snd] in *. split; [exact IH1|].
      unfold lines_of in *. rewrite flat_map_app, Hw2. cbn [app flat_map map]. now rewrite IH2, Ha.
  Qed.
  Lemma dump_shown p c m read bps ip start stop l max : MAX_INSTR_SIZE p = Some max -> has_breakpoints c m bps -> readable m read ->
    listing one c (match stop with Some s => Some (Z.min (Z.max start s) (start + 1023)) | None => None end) 10 start l -> Forall (legible max bps) l ->
    snd (dumpCode_ p (host_disassembler p decode) read bps start stop ip true) = Ok tt /\
    lines_of (fst (dumpCode_ p (host_disassembler p decode) read bps start stop ip true)) =
      T "CODE:" :: map (fun i => instr_line p ip i ++ match dget Z.eqb (in_address i) bps with Some _ => T "     * BREAKPOINT *" | None => [] end) l.
  Proof.
    intros Hm Hb Hr Hl Hleg. assert (0 <= max) as H0 by (unfold MAX_INSTR_SIZE in Hm; destruct (p_cpu p); try discriminate; injection Hm as <-; lia).
    unfold host_disassembler. rewrite Hm. unfold dumpCode_. unfold MAX_CODE_SIZE.
    replace (match stop with Some s => Some (Z.min (Z.max start s) (start + 1024 - 1)) | None => None end)
      with (match stop with Some s => Some (Z.min (Z.max start s) (start + 1023)) | None => None end) by (destruct stop; [do 2 f_equal; lia|reflexivity]).
    pose proof (bp_shown p c m read bps (Disassembler max decode) ip _ eq_refl H0 Hb Hr _ _ _ Hl Hleg) as [H1 H2].
    cbn [lbind log]. destruct (bp_lines _ _ _ _ _ _ _ _ _) as [w r]. cbn [fst snd] in *. split; [exact H1|]. cbn [app lines_of flat_map]. unfold lines_of in H2. now rewrite H2.
  Qed.
End Code.
Lemma sizes p : MAX_INSTR_SIZE p = match p_cpu p with X86_64 => Some 11 | I386 => Some 8 | _ => None end /\
  (MAX_INSTR_SIZE p = None -> forall decode read ip a, snd (disassembleOne (host_disassembler p decode) read ip a) = Err ENotImplementedError).
Proof. split; [reflexivity|]. intros H decode read ip a. unfold host_disassembler. now rewrite H. Qed.
