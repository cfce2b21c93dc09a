(** * FaultProofs3: what the analysis of a memory fault reports. *)
From Coq Require Import ZArith List Ascii String Bool Lia.
From Verif Require Import PyBase PyFacts Platform IntModel RegexModel RegexSpec RegexProofs PyEval SigModel MapModel TraceModel FaultModel FaultSpec FaultProofs FaultProofs2.
Import ListNotations.
Open Scope Z_scope.

Section Memory.
  Context (p : platform) (ns : namespace) (eval : text -> res pyval) (tg : target) (s : siginfo_t).
  Hypothesis Hlinux : running_linux p = true.
  Hypothesis Hsig : tg_siginfo tg = Ok s.
  Let a := si_addr s.

  Definition in_stack (maps : list mapping) : Prop := findStack maps = None \/ exists m sp, findStack maps = Some m /\ tg_sp tg = Ok sp /\ ~ out_of_stack sp m.
  Lemma out_dec sp m : negb ((mp_start m <=? sp) && (sp <=? mp_end m)) = true <-> out_of_stack sp m.
  Proof using. unfold out_of_stack. rewrite negb_true_iff, andb_false_iff, !Z.leb_gt. tauto. Qed.
  Inductive outcome (r : reason) : Prop :=
  | at_ip : tg_ip tg = Ok a -> new_InstructionError p a (Some tg) = Ok r -> outcome r
  | stack instr maps m sp : tg_ip tg <> Ok a -> getInstruction tg = Ok instr -> tg_mappings tg = Ok maps -> findStack maps = Some m -> tg_sp tg = Ok sp -> out_of_stack sp m ->
      new_StackOverflow p sp m instr (Some tg) = Ok r -> outcome r
  | access_at instr maps acc size regs : tg_ip tg <> Ok a -> getInstruction tg = Ok instr -> tg_mappings tg = Ok maps -> in_stack maps ->
      classified p tg instr a acc size regs -> accessed p tg a instr acc size regs r -> outcome r.
  Lemma new_error_err r0 : new_InstructionError p a (Some tg) = r0 -> match r0 with Ok _ => exists maps, tg_mappings tg = Ok maps | Err e => tg_mappings tg = Err e end.
  Proof using.
    intros <-. unfold new_InstructionError, SignalInfo. cbn [extractRegisters bind]. unfold findMappings. destruct (tg_mappings tg) as [maps|e]; cbn [bind]; [|reflexivity]. destruct maps; cbn; eauto.
  Qed.
  Definition after_ip (instr : option instruction) : res reason :=
    do found <- stack_overflow p tg instr;
    match found with
    | Some r => Ok r
    | None =>
        do found <- match instr with Some i => memoryFaultInstr p eval tg i (Some a) | None => Ok None end;
        match found with
        | Some r => Ok r
        | None => InvalidMemoryAccess p AnyAccess (Some (FInt a)) None instr [] (Some tg)
        end
    end.
  Lemma rest_cases instr r : tg_ip tg <> Ok a -> getInstruction tg = Ok instr -> after_ip instr = Ok r -> outcome r.
  Proof using.
    clear Hlinux Hsig. intros Hip Hi. unfold after_ip, stack_overflow. destruct (tg_mappings tg) as [maps|] eqn:Em; [|discriminate]. cbn [bind].
    assert (in_stack maps -> (do found <- match instr with Some i => memoryFaultInstr p eval tg i (Some a) | None => Ok None end;
      match found with Some r => Ok r | None => InvalidMemoryAccess p AnyAccess (Some (FInt a)) None instr [] (Some tg) end) = Ok r -> outcome r) as Hrest.
    { intros Hst. destruct instr as [i|]; cbn [bind].
      - pose proof (instr_cases p eval tg i a) as Hc. destruct (memoryFaultInstr p eval tg i (Some a)) as [[r0|]|e]; cbn [bind]; [| |discriminate].
        + intros [= <-]. destruct Hc as (acc & size & regs & Hc & Hr). exact (access_at _ _ _ _ _ _ Hip Hi Em Hst Hc Hr).
        + intros H. exact (access_at _ _ _ _ _ _ Hip Hi Em Hst Hc H).
      - intros H. refine (access_at _ _ _ AnyAccess None [] Hip Hi Em Hst _ H). cbn. auto. }
    destruct (findStack maps) as [m|] eqn:Es; cbn [bind].
    - destruct (tg_sp tg) as [sp|] eqn:Esp; [|discriminate]. cbn [bind]. destruct (negb _) eqn:Eo.
      + apply out_dec in Eo. destruct (new_StackOverflow p sp m instr (Some tg)) as [r0|] eqn:En; [|discriminate]. cbn [bind]. intros [= <-]. exact (stack _ _ _ _ _ Hip Hi Em Es Esp Eo En).
      + apply Hrest. right. exists m, sp. split; [exact Es|]. split; [exact Esp|]. rewrite <- out_dec. congruence.
    - apply Hrest. now left.
  Qed.
  Lemma memory_unfold : memoryFault p eval tg = (do instr <- getInstruction tg; do found <- instruction_error p tg a; match found with Some r => Ok r | None => after_ip instr end).
  Proof. unfold memoryFault, getSignalInfo. rewrite Hlinux, Hsig. reflexivity. Qed.
  Lemma memory_cases r : memoryFault p eval tg = Ok r -> outcome r.
  Proof.
    rewrite memory_unfold. destruct (getInstruction tg) as [instr|] eqn:Ei; [|discriminate]. cbn [bind].
    unfold instruction_error. destruct (tg_ip tg) as [ip|e] eqn:Eip; cbn [bind].
    - destruct (Z.eqb_spec ip a) as [->|Hip].
      + destruct (new_InstructionError p a (Some tg)) as [r0|e] eqn:En; cbn [bind].
        * intros [= <-]. now apply at_ip.
        * apply new_error_err in En. cbn in En. destruct (is_ptrace_error e); [|discriminate]. cbn [bind]. unfold after_ip, stack_overflow. rewrite En. discriminate.
      + cbn [bind]. apply rest_cases; [congruence|exact Ei].
    - destruct (is_ptrace_error e); [|discriminate]. cbn [bind]. apply rest_cases; [congruence|exact Ei].
  Qed.
  (** ** The kind *)
  Lemma kind_access instr acc size regs r : accessed p tg a instr acc size regs r ->
    r_kind r = InvalidAccess acc /\ r_instr r = instr /\ r_name r = access_name acc ++ T "-" ++ lower (formatAddress p a) /\
    r_text r = access_prefix_addr acc (formatAddress p a) ++ match size with Some z => if z =? 0 then [] else T " (size=" ++ str_int z ++ T " bytes)" | None => [] end /\
    findMappings p (Some (FInt a)) (Some tg) size = Ok (r_mappings r) /\
    exists rs, extractRegisters p (Some tg) instr = Ok rs /\ r_registers r = dict_update rs regs.
  Proof using.
    clear Hlinux Hsig. unfold accessed, InvalidMemoryAccess. cbn [format_faddr bind]. intros H. apply SignalInfo_inv in H as (H1 & H2 & H3 & H4 & H5 & H6). rewrite H1, H2, H3, H4, H5.
    split; [reflexivity|]. split; [reflexivity|]. split; [reflexivity|]. split; [|split; [reflexivity|exact H6]]. destruct size as [z|]; [destruct (z =? 0)|]; rewrite ?app_nil_r; reflexivity.
  Qed.
  Lemma kind_ip r : memoryFault p eval tg = Ok r -> (r_kind r = InstructionError <-> tg_ip tg = Ok a).
  Proof.
    intros H. apply memory_cases in H as [Hip H|instr maps m sp Hip Hi Hm Hs Hsp Ho H|instr maps acc size regs Hip Hi Hm Hst Hc H].
    - apply SignalInfo_inv in H as (H & _). tauto.
    - apply SignalInfo_inv in H as (H & _). split; [congruence|tauto].
    - apply kind_access in H as (H & _). split; [congruence|tauto].
  Qed.
  Lemma kind_stack r sp m : memoryFault p eval tg = Ok r ->
    (r_kind r = StackOverflow sp m <-> tg_ip tg <> Ok a /\ tg_sp tg = Ok sp /\ out_of_stack sp m /\ exists maps, tg_mappings tg = Ok maps /\ first_stack maps m).
  Proof.
    intros H. apply memory_cases in H as [Hip H|instr maps m' sp' Hip Hi Hm Hs Hsp Ho H|instr maps acc size regs Hip Hi Hm Hst Hc H].
    - apply SignalInfo_inv in H as (H & _). rewrite H. split; [discriminate|]. tauto.
    - apply SignalInfo_inv in H as (H & _). rewrite H. split.
      + intros [= <- <-]. split; [exact Hip|]. split; [exact Hsp|]. split; [exact Ho|]. exists maps. split; [exact Hm|]. now apply find_stack_spec.
      + intros (_ & E1 & _ & maps2 & E2 & E3). apply find_stack_spec in E3. congruence.
    - apply kind_access in H as (H & _). rewrite H. split; [discriminate|]. intros (_ & E1 & E4 & maps2 & E2 & E3). apply find_stack_spec in E3. rewrite Hm in E2. injection E2 as <-. destruct Hst as [F|(m2 & sp2 & F1 & F2 & F3)]; [congruence|].
      rewrite F1 in E3. injection E3 as ->. rewrite F2 in E1. injection E1 as ->. contradiction.
  Qed.
  Lemma kind_other r : memoryFault p eval tg = Ok r -> tg_ip tg <> Ok a -> (forall sp m, r_kind r <> StackOverflow sp m) ->
    exists acc, r_kind r = InvalidAccess acc /\ r_name r = access_title p acc (Some (FInt a)) /\ exists rest, r_text r = access_text p acc (Some (FInt a)) ++ rest.
  Proof.
    intros H Hip Hno. apply memory_cases in H as [Hip' H|instr maps m' sp' _ Hi Hm Hs Hsp Ho H|instr maps acc size regs _ Hi Hm Hst Hc H].
    - contradiction.
    - apply SignalInfo_inv in H as (H & _). now apply Hno in H.
    - apply kind_access in H as (H1 & _ & H2 & H3 & _). exists acc. split; [exact H1|]. split; [rewrite H2; destruct acc; reflexivity|]. eexists. rewrite H3. destruct acc; reflexivity.
  Qed.
  (** ** The class of the access *)
  Lemma class_of r acc : memoryFault p eval tg = Ok r -> r_kind r = InvalidAccess acc -> exists size regs, classified p tg (r_instr r) a acc size regs /\ accessed p tg a (r_instr r) acc size regs r /\ getInstruction tg = Ok (r_instr r).
  Proof.
    intros H Hk. apply memory_cases in H as [Hip' H|instr maps m' sp' _ Hi Hm Hs Hsp Ho H|instr maps acc' size regs _ Hi Hm Hst Hc H].
    - apply SignalInfo_inv in H as (H & _). congruence.
    - apply SignalInfo_inv in H as (H & _). congruence.
    - pose proof H as H'. apply kind_access in H as (H1 & -> & _). rewrite H1 in Hk. injection Hk as ->. eauto.
  Qed.
  Lemma class_write r acc i : memoryFault p eval tg = Ok r -> r_kind r = InvalidAccess acc -> r_instr r = Some i -> write_form (in_text i) -> acc = WriteAccess.
  Proof.
    intros H Hk Hi Hw. destruct (class_of r acc H Hk) as (size & regs & Hc & _). rewrite Hi in Hc. destruct Hc as [H1|[H1|[H1|H1]]]; tauto.
  Qed.
  Lemma class_read r acc i : memoryFault p eval tg = Ok r -> r_kind r = InvalidAccess acc -> r_instr r = Some i -> ~ write_form (in_text i) -> read_form (in_text i) \/ load_form (in_text i) -> acc = ReadAccess.
  Proof.
    intros H Hk Hi Hw Hr. destruct (class_of r acc H Hk) as (size & regs & Hc & _). rewrite Hi in Hc. destruct Hc as [H1|[H1|[H1|H1]]]; tauto.
  Qed.
  Lemma class_none r acc i : memoryFault p eval tg = Ok r -> r_kind r = InvalidAccess acc -> r_instr r = Some i -> ~ write_form (in_text i) -> ~ read_form (in_text i) -> ~ load_form (in_text i) -> (forall o, ~ string_form o (in_text i)) -> acc = AnyAccess.
  Proof.
    intros H Hk Hi Hw Hr Hl Hs. destruct (class_of r acc H Hk) as (size & regs & Hc & _). rewrite Hi in Hc. destruct Hc as [H1|[H1|[H1|H1]]]; try tauto. destruct H1 as (_ & _ & _ & (o & Ho & _) & _). now apply Hs in Ho.
  Qed.
  Lemma class_no_instr r acc : memoryFault p eval tg = Ok r -> r_kind r = InvalidAccess acc -> r_instr r = None -> acc = AnyAccess.
  Proof. intros H Hk Hi. destruct (class_of r acc H Hk) as (size & regs & Hc & _). rewrite Hi in Hc. apply Hc. Qed.
  Lemma class_movs r acc i x y : memoryFault p eval tg = Ok r -> r_kind r = InvalidAccess acc -> r_instr r = Some i -> ~ write_form (in_text i) -> ~ read_form (in_text i) -> ~ load_form (in_text i) -> string_form (T "MOVS") (in_text i) ->
    tg_getreg tg (source p) = Ok x -> tg_getreg tg (dest p) = Ok y -> acc = if a =? y then WriteAccess else if a =? x then ReadAccess else AnyAccess.
  Proof.
    intros H Hk Hi Hw Hr Hl Hs Ex Ey. destruct (class_of r acc H Hk) as (size & regs & Hc & _). rewrite Hi in Hc. destruct Hc as [H1|[H1|[H1|H1]]]; try tauto; [|destruct H1 as (_ & _ & _ & F & _); now apply F in Hs].
    destruct H1 as (_ & _ & _ & (o & Ho & Hacc) & _). rewrite (string_form_unique _ _ _ Ho Hs) in Hacc. destruct Hacc as [(e & _ & _ & _ & [F|[_ F]])|[(x' & y' & _ & F1 & F2 & _ & ->)|(x' & F & _)]]; [congruence|congruence| |discriminate F].
    rewrite Ex in F1. rewrite Ey in F2. injection F1 as <-. injection F2 as <-. reflexivity.
  Qed.
  Lemma class_scas r acc i x : memoryFault p eval tg = Ok r -> r_kind r = InvalidAccess acc -> r_instr r = Some i -> ~ write_form (in_text i) -> ~ read_form (in_text i) -> ~ load_form (in_text i) -> string_form (T "SCAS") (in_text i) ->
    tg_getreg tg (source p) = Ok x -> acc = if a =? x then ReadAccess else AnyAccess.
  Proof.
    intros H Hk Hi Hw Hr Hl Hs Ex. destruct (class_of r acc H Hk) as (size & regs & Hc & _). rewrite Hi in Hc. destruct Hc as [H1|[H1|[H1|H1]]]; try tauto; [|destruct H1 as (_ & _ & _ & F & _); now apply F in Hs].
    destruct H1 as (_ & _ & _ & (o & Ho & Hacc) & _). rewrite (string_form_unique _ _ _ Ho Hs) in Hacc. destruct Hacc as [(e & _ & _ & _ & [F|[F _]])|[(x' & y' & F & _)|(x' & _ & F & _ & ->)]]; [congruence|discriminate F|discriminate F|].
    rewrite Ex in F. injection F as <-. reflexivity.
  Qed.
  (** ** The size *)
  Lemma words_prefix acc address : access_prefix_addr acc (formatAddress p address) = access_text p acc (Some (FInt address)).
  Proof using. clear. destruct acc; reflexivity. Qed.
  Lemma size_string r acc i n : memoryFault p eval tg = Ok r -> r_kind r = InvalidAccess acc -> r_instr r = Some i -> ~ write_form (in_text i) -> ~ read_form (in_text i) -> ~ load_form (in_text i) ->
    string_size (in_text i) n -> r_text r = access_text p acc (Some (FInt a)) ++ size_text n.
  Proof.
    intros H Hk Hi Hw Hr Hl Hs. destruct (class_of r acc H Hk) as (size & regs & Hc & Ha & _). rewrite Hi in Hc. assert (size = Some n) as ->.
    { destruct Hc as [H1|[H1|[H1|H1]]]; try tauto.
      - destruct H1 as (_ & _ & _ & _ & E). now apply E.
      - destruct H1 as (_ & _ & _ & F & _). destruct Hs as (prefix & o & x & rest & H1 & H2 & _ & E). destruct (F o). exists prefix, (x :: rest). auto. }
    apply kind_access in Ha as (_ & _ & _ & -> & _). rewrite words_prefix. f_equal. unfold size_text.
    assert (n =? 0 = false) as -> by (destruct Hs as (_ & _ & x & _ & _ & _ & Hx & _); cbn [In] in Hx; destruct Hx as [E|[E|[E|[]]]]; injection E as _ <-; reflexivity). reflexivity.
  Qed.
  Lemma size_else r acc i : memoryFault p eval tg = Ok r -> r_kind r = InvalidAccess acc -> r_instr r = Some i ->
    (write_form (in_text i) \/ read_form (in_text i) \/ load_form (in_text i) \/ forall n, ~ string_size (in_text i) n) -> r_text r = access_text p acc (Some (FInt a)).
  Proof.
    intros H Hk Hi Hno. destruct (class_of r acc H Hk) as (size & regs & Hc & Ha & _). rewrite Hi in Hc. assert (size = None) as ->.
    { destruct Hc as [H1|[H1|[H1|H1]]]; try tauto. destruct H1 as (H2 & H3 & H4 & _ & E). destruct size as [n|]; [|reflexivity]. destruct Hno as [Hno|[Hno|[Hno|Hno]]]; try contradiction. destruct (Hno n). now apply E. }
    apply kind_access in Ha as (_ & _ & _ & -> & _). rewrite words_prefix. apply app_nil_r.
  Qed.
  Lemma size_no_instr r acc : memoryFault p eval tg = Ok r -> r_kind r = InvalidAccess acc -> r_instr r = None -> r_text r = access_text p acc (Some (FInt a)).
  Proof.
    intros H Hk Hi. destruct (class_of r acc H Hk) as (size & regs & Hc & Ha & _). rewrite Hi in Hc. destruct Hc as (_ & -> & _). apply kind_access in Ha as (_ & _ & _ & -> & _). rewrite words_prefix. apply app_nil_r.
  Qed.
  Lemma memory_titled r : memoryFault p eval tg = Ok r -> r_name r = report_title p a (r_kind r).
  Proof.
    intros H. apply memory_cases in H as [Hip H|instr maps m sp Hip Hi Hm Hs Hsp Ho H|instr maps acc size regs Hip Hi Hm Hst Hc H].
    - apply SignalInfo_inv in H as (-> & -> & _). reflexivity.
    - apply SignalInfo_inv in H as (-> & -> & _). reflexivity.
    - apply kind_access in H as (-> & _ & -> & _). destruct acc; reflexivity.
  Qed.
  (** ** The registers *)
  Lemma classified_regs instr acc size regs n v : classified p tg instr a acc size regs -> In (n, v) regs -> tg_getreg tg n = Ok v.
  Proof using.
    clear Hlinux Hsig. intros Hc Hin. destruct instr as [i|]; [|destruct Hc as (_ & _ & ->); destruct Hin]. destruct Hc as [H1|[H1|[H1|H1]]].
    - destruct H1 as (_ & _ & _ & ->). destruct Hin.
    - destruct H1 as (_ & _ & _ & _ & ->). destruct Hin.
    - destruct H1 as (_ & _ & _ & (o & _ & [(e & _ & _ & -> & _)|[(x & y & _ & E1 & E2 & -> & _)|(x & _ & E1 & -> & _)]]) & _); cbn [In] in Hin; [destruct Hin| |].
      + destruct Hin as [[= <- <-]|[[= <- <-]|[]]]; assumption.
      + destruct Hin as [[= <- <-]|[]]; assumption.
    - destruct H1 as (_ & _ & _ & _ & _ & _ & ->). destruct Hin.
  Qed.
  Lemma named_registers r acc n v : memoryFault p eval tg = Ok r -> r_kind r = InvalidAccess acc -> In (n, v) (r_registers r) -> tg_getreg tg n = Ok v.
  Proof.
    intros H Hk Hin. destruct (class_of r acc H Hk) as (size & regs & Hc & Ha & _). apply kind_access in Ha as (_ & _ & _ & _ & _ & rs & Hrs & Er). rewrite Er in Hin. apply in_update in Hin as [Hin|Hin].
    - eapply classified_regs; [exact Hc|exact Hin].
    - destruct (r_instr r) as [i|]; [|cbn in Hrs; injection Hrs as <-; destruct Hin].
      destruct (INTEL_REGISTER_REGEX p) eqn:HW; [|unfold extractRegisters in Hrs; rewrite HW in Hrs; injection Hrs as <-; destruct Hin].
      assert (intel p) as Hp by (unfold INTEL_REGISTER_REGEX, intel in *; destruct (p_cpu p); auto; discriminate HW).
      apply extract_spec in Hrs as (ops & _ & Hx); [|exact Hp]. apply Hx in Hin as (w & _ & _ & _ & Hg). exact Hg.
  Qed.
  Lemma shown_registers r acc i ops w v : memoryFault p eval tg = Ok r -> r_kind r = InvalidAccess acc -> r_instr r = Some i -> intel p -> operands (in_text i) ops -> word_of ops w -> known_register p w -> tg_getreg tg (lower w) = Ok v ->
    In (lower w, v) (r_registers r).
  Proof.
    intros H Hk Hi Hp Hops Hw Hkn Hg. destruct (class_of r acc H Hk) as (size & regs & Hc & Ha & _). apply kind_access in Ha as (_ & _ & _ & _ & _ & rs & Hrs & Er).
    rewrite Hi in Hrs. apply extract_spec in Hrs as (ops2 & Ho2 & Hx); [|exact Hp]. apply operands_split in Hops as (op1 & E1). apply operands_split in Ho2 as (op2 & E2). rewrite E1 in E2. injection E2 as <- <-.
    rewrite Er. apply in_update_left; [|apply Hx; eauto].
    intros x Hin. pose proof (classified_regs _ _ _ _ _ _ Hc Hin) as E. congruence.
  Qed.
  (** ** The analysis ends *)
  Definition readable : Prop :=
    (exists maps, tg_mappings tg = Ok maps) /\ (exists sp, tg_sp tg = Ok sp) /\ only_ptrace_errors (tg_ip tg) /\ (forall n, only_ptrace_errors (tg_getreg tg n)) /\
    match tg_instr tg with Some i => only_ptrace_errors i | None => True end.
  Definition has_operands : Prop := intel p -> forall i, tg_instr tg = Some (Ok i) -> exists ops, operands (in_text i) ops.
  Lemma mappings_ok maps x size : tg_mappings tg = Ok maps -> exists l, findMappings p x (Some tg) size = Ok l.
  Proof using. unfold findMappings. intros ->. destruct x as [x|]; [|eauto]. destruct maps; cbn; eauto. Qed.
  Lemma memory_total : readable -> has_operands -> exists r, memoryFault p eval tg = Ok r.
  Proof.
    intros ((maps & Hm) & (sp & Hsp) & Hip & Hg & Hins) Hop. rewrite memory_unfold.
    assert (exists instr, getInstruction tg = Ok instr /\ match instr with Some i => tg_instr tg = Some (Ok i) | None => True end) as (instr & Ei & Hinstr).
    { unfold getInstruction. destruct (tg_instr tg) as [[i|e]|]; [exists (Some i); split; reflexivity| |exists None; split; [reflexivity|exact I]]. change (is_ptrace_error e = true) in Hins. rewrite Hins. exists None. split; [reflexivity|exact I]. }
    rewrite Ei. cbn [bind].
    assert (exists regs, extractRegisters p (Some tg) instr = Ok regs) as (regs & Hregs).
    { destruct instr as [i|]; [|cbn; eauto]. apply extract_ok; [|exact Hg]. intros Hp. now apply (Hop Hp). }
    assert (exists found, instruction_error p tg a = Ok found) as (found & Hf).
    { unfold instruction_error. destruct (tg_ip tg) as [ip|e]; cbn [bind]; [|change (is_ptrace_error e = true) in Hip; rewrite Hip; eauto]. destruct (ip =? a); [|eauto].
      destruct (mappings_ok maps (Some (FInt ip)) None Hm) as (l & Hl). destruct (SignalInfo_ok p InstructionError (T "instr_error") (T "UNABLE TO EXECUTE CODE AT " ++ formatAddress p ip ++ T " (SEGMENTATION FAULT)") (Some (FInt ip)) None None (Some tg) [(T "<instr pointer>", ip)] [] l) as (r & Hr); [reflexivity|exact Hl|].
      unfold new_InstructionError. rewrite Hr. cbn. eauto. }
    rewrite Hf. cbn [bind]. destruct found as [r|]; [eauto|]. unfold after_ip.
    assert (forall acc size regs2, exists r, InvalidMemoryAccess p acc (Some (FInt a)) size instr regs2 (Some tg) = Ok r) as Hacc.
    { intros acc size regs2. unfold InvalidMemoryAccess. cbn [format_faddr bind]. destruct (mappings_ok maps (Some (FInt a)) size Hm) as (l & Hl). eapply SignalInfo_ok; [exact Hregs|exact Hl]. }
    assert (exists found, stack_overflow p tg instr = Ok found) as (found & Hs).
    { unfold stack_overflow. rewrite Hm. cbn [bind]. destruct (findStack maps) as [m|]; [|eauto]. rewrite Hsp. cbn [bind]. destruct (negb _); [|eauto].
      destruct (mappings_ok maps (Some (FInt sp)) None Hm) as (l & Hl). unfold new_StackOverflow. destruct (SignalInfo_ok p (StackOverflow sp m) (T "stack_overflow") (T "STACK OVERFLOW! Stack pointer is in " ++ map_str p m) (Some (FInt sp)) None instr (Some tg) [(T "<stack ptr>", sp)] regs l Hregs Hl) as (r & Hr).
      rewrite Hr. cbn. eauto. }
    rewrite Hs. cbn [bind]. destruct found as [r|]; [eauto|]. destruct instr as [i|]; cbn [bind]; [|apply Hacc].
    pose proof (instr_cases p eval tg i a) as Hc. destruct (memoryFaultInstr p eval tg i (Some a)) as [[r|]|e]; cbn [bind]; [eauto|apply Hacc|].
    exfalso. destruct Hc as [(acc & size & regs2 & _ & F)|(F & n & F2)].
    - destruct (Hacc acc size regs2) as (r & Hr). congruence.
    - specialize (Hg n). rewrite F2 in Hg. change (is_ptrace_error e = true) in Hg. congruence.
  Qed.
End Memory.
