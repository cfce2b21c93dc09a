(** * FaultProofs2: the registers of an instruction, the cases of the analysis. *)
From Coq Require Import ZArith List Ascii String Bool Lia.
From Verif Require Import PyBase PyFacts Platform IntModel RegexModel RegexSpec RegexProofs PyEval SigModel MapModel TraceModel FaultModel FaultSpec FaultProofs.
Import ListNotations.
Open Scope Z_scope.

(** ** The registers *)
Lemma upper_is_word c : is_upper c = true -> is_word c = true.
Proof. unfold is_word. intros ->. now rewrite orb_true_r. Qed.
Lemma known_word p w : known_register p w -> w <> [] /\ Forall (fun x => is_word x = true) w.
Proof.
  intros [(x & y & z & -> & Hx & Hy & Hz)|H].
  - split; [discriminate|]. constructor; [destruct Hx as [->|[_ ->]]; reflexivity|]. constructor; [now apply upper_is_word|]. constructor; [now apply upper_is_word|constructor].
  - cbn [In] in H. repeat match goal with H : _ \/ _ |- _ => destruct H as [H|H] end; try contradiction; subst w; (split; [discriminate|repeat constructor]).
Qed.
Definition intel (p : platform) : Prop := p_cpu p = I386 \/ p_cpu p = X86_64.
Lemma den_two_upper b w rest c c' : den two_upper b w rest c c' <-> exists y z, w = [y; z] /\ is_upper y = true /\ is_upper z = true /\ c' = c.
Proof.
  unfold two_upper. rewrite den_times_set. split.
  - intros (Hl & Hf & ->). destruct w as [|y [|z [|? ?]]]; try discriminate Hl. inversion Hf as [|? ? Hy Hf2]; subst. inversion Hf2; subst. now exists y, z.
  - intros (y & z & -> & Hy & Hz & ->). auto 10.
Qed.
Lemma is_in_spec s c : is_in s c = true <-> In c (T s).
Proof. unfold is_in, char_in. rewrite existsb_exists. split; [intros (x & H & E); apply Ascii.eqb_eq in E; now subst|intros H; exists c; now rewrite Ascii.eqb_refl]. Qed.
Lemma den_pair s x b w rest c c' : den (RCat (RSet (is_in s)) (rchar x)) b w rest c c' <-> exists y, w = [y; x] /\ In y (T s) /\ c' = c.
Proof.
  cbn [den rchar]. split.
  - intros (w1 & w2 & c1 & -> & (y & -> & Hy & ->) & (z & -> & Hz & ->)). apply Ascii.eqb_eq in Hz as <-. apply is_in_spec in Hy. now exists y.
  - intros (y & -> & Hy & ->). exists [y], [x], c. split; [reflexivity|]. split; [exists y; split; [reflexivity|]; split; [now apply is_in_spec|reflexivity]|]. exists x. now rewrite Ascii.eqb_refl.
Qed.
Lemma den_first f b w rest c c' : den (RCat (RSet f) two_upper) b w rest c c' <-> exists x y z, w = [x; y; z] /\ f x = true /\ is_upper y = true /\ is_upper z = true /\ c' = c.
Proof.
  cbn [den]. split.
  - intros (w1 & w2 & c1 & -> & (x & -> & Hx & ->) & H). apply den_two_upper in H as (y & z & -> & Hy & Hz & ->). exists x, y, z. auto.
  - intros (x & y & z & -> & Hx & Hy & Hz & ->). exists [x], [y; z], c. split; [reflexivity|]. split; [now exists x|]. apply den_two_upper. now exists y, z.
Qed.
Lemma pair_in (s : list ascii) (x : ascii) w : (exists y, w = [y; x] /\ In y s) <-> In w (map (fun y => [y; x]) s).
Proof. rewrite in_map_iff. split; intros (y & H1 & H2); exists y; auto. Qed.
Lemma den_reg (f : ascii -> bool) p b w rest c c' :
  (forall x, f x = true <-> x = "E"%char \/ (p_cpu p = X86_64 /\ x = "R"%char)) ->
  den (ralt [RCat (RSet f) two_upper; RCat (RSet (is_in "CDEFGS")) (rchar "S"%char); RCat (RSet (is_in "ABCD")) (rchar "L"%char)]) b w rest c c' <-> known_register p w /\ c' = c.
Proof.
  intros Hf. rewrite !den_alt_cons by discriminate. cbn [ralt]. rewrite den_first, !den_pair. unfold known_register.
  change [T "CS"; T "DS"; T "ES"; T "FS"; T "GS"; T "SS"] with (map (fun y => [y; "S"%char]) (T "CDEFGS")). change [T "AL"; T "BL"; T "CL"; T "DL"] with (map (fun y => [y; "L"%char]) (T "ABCD")). rewrite <- !pair_in.
  split.
  - intros [(x & y & z & -> & Hx & Hy & Hz & ->)|[(y & -> & Hy & ->)|(y & -> & Hy & ->)]]; (split; [|reflexivity]); [left; exists x, y, z; apply Hf in Hx; auto|right; left; eauto|right; right; eauto].
  - intros [[(x & y & z & -> & Hx & Hy & Hz)|[(y & -> & Hy)|(y & -> & Hy)]] ->]; [left; exists x, y, z; apply Hf in Hx; auto|right; left; eauto|right; right; eauto].
Qed.
Lemma regex_den p W : INTEL_REGISTER_REGEX p = Some W -> forall b w rest c', den W b w rest [] c' <->
  c' = [] /\ w <> [] /\ Forall (fun x => is_word x = true) w /\ known_register p w /\ starts_word b = false /\ starts_word rest = false.
Proof.
  intros HW. assert (exists f, W = rcat [RBound; ralt [RCat (RSet f) two_upper; RCat (RSet (is_in "CDEFGS")) (rchar "S"%char); RCat (RSet (is_in "ABCD")) (rchar "L"%char)]; RBound] /\ forall x, f x = true <-> x = "E"%char \/ (p_cpu p = X86_64 /\ x = "R"%char)) as (f & -> & Hf).
  { unfold INTEL_REGISTER_REGEX in HW. destruct (p_cpu p); try discriminate HW; injection HW as <-.
    - eexists. split; [reflexivity|]. intros x. rewrite Ascii.eqb_eq. split; [intros <-; now left|intros [->|[F _]]; [reflexivity|discriminate F]].
    - eexists. split; [reflexivity|]. intros x. rewrite is_in_spec. cbn [In T list_ascii_of_string]. split; [intros [<-|[<-|[]]]; auto|intros [->|[_ ->]]; auto]. }
  clear HW. intros b w rest c'. rewrite !den_cat_cons by discriminate. split.
  - intros (w1 & w2 & c1 & -> & (-> & -> & Hb) & H). cbn [app rev] in *. rewrite den_cat_cons in H by discriminate. destruct H as (w3 & w4 & c3 & -> & H & H4). cbn [rcat den] in H4. destruct H4 as (-> & -> & Hr). apply (den_reg f p) in H as (H & ->); [|exact Hf].
    rewrite !app_nil_r in *. destruct (known_word p w3 H) as [Hn Hw]. split; [reflexivity|]. split; [exact Hn|]. split; [exact Hw|]. split; [exact H|].
    assert (starts_word (w3 ++ rest) = true) as E1 by (destruct w3; [congruence|inversion Hw; subst; assumption]). rewrite E1 in Hb.
    assert (starts_word (rev w3 ++ b) = true) as E2.
    { destruct (@exists_last _ w3 Hn) as (l & z & ->). apply Forall_app in Hw as [_ Hz]. inversion Hz; subst. now rewrite rev_app_distr. }
    rewrite E2 in Hr. destruct (starts_word b); [discriminate Hb|]. destruct (starts_word rest); [discriminate Hr|]. auto.
  - intros (-> & Hn & Hw & H & Hb & Hr). exists [], w, []. split; [reflexivity|].
    assert (starts_word (w ++ rest) = true) as E1 by (destruct w; [congruence|inversion Hw; subst; assumption]).
    assert (starts_word (rev w ++ b) = true) as E2.
    { destruct (@exists_last _ w Hn) as (l & z & ->). apply Forall_app in Hw as [_ Hz]. inversion Hz; subst. now rewrite rev_app_distr. }
    split; [cbn [den]; split; [reflexivity|]; split; [reflexivity|]; now rewrite E1, Hb|]. rewrite den_cat_cons by discriminate. exists w, [], []. rewrite app_nil_r. split; [reflexivity|].
    split; [now apply (den_reg f p)|]. cbn [rcat den]. split; [reflexivity|]. split; [reflexivity|]. cbn [rev app]. now rewrite E2, Hr.
Qed.
Lemma intel_regex p : intel p -> exists W, INTEL_REGISTER_REGEX p = Some W.
Proof. unfold INTEL_REGISTER_REGEX. intros [->| ->]; eauto. Qed.

Lemma in_dset n v k x (d : list (text * Z)) : In (n, v) (dset text_eqb k x d) -> (n = k /\ v = x) \/ In (n, v) d.
Proof.
  induction d as [|[k' x'] d IH]; cbn [dset In].
  - intros [[= <- <-]|[]]. now left.
  - destruct (text_eqb k k') eqn:E; cbn [In].
    + apply text_eqb_eq in E as <-. intros [[= <- <-]|H]; auto.
    + intros [[= <- <-]|H]; [auto|]. apply IH in H as [H|H]; auto.
Qed.
Lemma in_dset_same k x (d : list (text * Z)) : In (k, x) (dset text_eqb k x d).
Proof.
  induction d as [|[k' x'] d IH]; cbn [dset In]; [auto|]. destruct (text_eqb k k') eqn:E; cbn [In]; [|auto]. apply text_eqb_eq in E as <-. auto.
Qed.
Lemma in_dset_other n v k x (d : list (text * Z)) : n <> k -> In (n, v) d -> In (n, v) (dset text_eqb k x d).
Proof.
  intros Hn. induction d as [|[k' x'] d IH]; cbn [dset In]; [auto|]. intros [[= -> ->]|H].
  - destruct (text_eqb k n) eqn:E; [apply text_eqb_eq in E; congruence|now left].
  - destruct (text_eqb k k'); [now right|]. right. auto.
Qed.
Lemma read_registers_spec getreg ms : forall acc regs, (forall n v, In (n, v) acc -> getreg n = Ok v) -> read_registers getreg ms acc = Ok regs ->
  forall n v, In (n, v) regs <-> ((exists m, In m ms /\ lower (m_text m) = n) /\ getreg n = Ok v) \/ In (n, v) acc.
Proof.
  induction ms as [|m ms IH]; intros acc regs Hacc; cbn [read_registers].
  - intros [= <-] n v. split; [now right|intros [[(m & [] & _) _]|H]; exact H].
  - destruct (getreg (lower (m_text m))) as [x|e] eqn:E.
    + intros H n v. assert (forall n' v', In (n', v') (dset text_eqb (lower (m_text m)) x acc) -> getreg n' = Ok v') as Hacc' by (intros n' v' Hin; apply in_dset in Hin as [[-> ->]|Hin]; [exact E|now apply Hacc]).
      rewrite (IH _ _ Hacc' H). cbn [In]. split.
      * intros [[(m' & H1 & H2) H3]|Hin]; [left; split; [exists m'; auto|exact H3]|]. apply in_dset in Hin as [[-> ->]|Hin]; [left; split; [exists m; auto|exact E]|now right].
      * intros [[(m' & [<-|H1] & H2) H3]|Hin].
        -- right. subst n. rewrite E in H3. injection H3 as <-. apply in_dset_same.
        -- left. eauto.
        -- right. destruct (text_eqb n (lower (m_text m))) eqn:En; [apply text_eqb_eq in En as ->|apply text_eqb_neq in En; now apply in_dset_other]. apply Hacc in Hin. rewrite E in Hin. injection Hin as <-. apply in_dset_same.
    + destruct (is_ptrace_error e); [|discriminate]. intros H n v. rewrite (IH _ _ Hacc H). cbn [In]. split.
      * intros [[(m' & H1 & H2) H3]|Hin]; [left; split; [exists m'; auto|exact H3]|now right].
      * intros [[(m' & [<-|H1] & H2) H3]|Hin]; [subst n; congruence|left; eauto|now right].
Qed.
Lemma read_registers_ok getreg ms : (forall n, only_ptrace_errors (getreg n)) -> forall acc, exists regs, read_registers getreg ms acc = Ok regs.
Proof.
  intros Hg. induction ms as [|m ms IH]; intros acc; cbn [read_registers]; [eauto|]. specialize (Hg (lower (m_text m))). destruct (getreg (lower (m_text m))) as [x|e]; [apply IH|]. cbn in Hg. rewrite Hg. apply IH.
Qed.
Lemma operands_split asm ops : operands asm ops <-> exists op, split1 " "%char (upper asm) = Some (op, ops).
Proof.
  unfold operands. split.
  - intros (op & H1 & H2). exists op. apply split1_spec. auto.
  - intros (op & H). apply split1_spec in H as [H1 H2]. exists op. auto.
Qed.
Lemma extract_spec p tg i regs : intel p -> extractRegisters p (Some tg) (Some i) = Ok regs ->
  exists ops, operands (in_text i) ops /\ forall n v, In (n, v) regs <-> exists w, word_of ops w /\ known_register p w /\ n = lower w /\ tg_getreg tg n = Ok v.
Proof.
  intros Hp. destruct (intel_regex p Hp) as (W & HW). unfold extractRegisters. rewrite HW. destruct (split1 " "%char (upper (in_text i))) as [[op ops]|] eqn:E; [|discriminate]. intros H. exists ops. split; [apply operands_split; eauto|].
  intros n v. rewrite (read_registers_spec _ _ _ _ (fun n v (F : In (n, v) []) => match F with end) H). cbn [In]. split.
  - intros [[(m & Hm & <-) Hg]|[]]. destruct (words_name W (known_register p) (regex_den p W HW) ops m Hm) as (Hn & _ & Hw). eauto.
  - intros (w & Hw & Hk & -> & Hg). left. split; [|exact Hg]. destruct (known_word p w Hk) as [Hn Hf]. apply (words_iff W (known_register p) (regex_den p W HW) ops w) in Hw; auto. destruct Hw as (m & Hm & <-). eauto.
Qed.
Lemma extract_ok p tg i : (intel p -> exists ops, operands (in_text i) ops) -> (forall n, only_ptrace_errors (tg_getreg tg n)) -> exists regs, extractRegisters p (Some tg) (Some i) = Ok regs.
Proof.
  intros Hs Hg. unfold extractRegisters. destruct (INTEL_REGISTER_REGEX p) as [W|] eqn:HW; [|eauto]. destruct Hs as (ops & Hs).
  - unfold INTEL_REGISTER_REGEX, intel in *. destruct (p_cpu p); auto; discriminate HW.
  - apply operands_split in Hs as (op & ->). now apply read_registers_ok.
Qed.
Lemma extract_fails p tg i : intel p -> ~ In " "%char (upper (in_text i)) -> extractRegisters p (Some tg) (Some i) = Err EIndexError.
Proof. intros Hp Hn. destruct (intel_regex p Hp) as (W & HW). unfold extractRegisters. rewrite HW. apply split1_none in Hn as ->. reflexivity. Qed.

Lemma in_update n v d : forall l, In (n, v) (dict_update l d) -> In (n, v) d \/ In (n, v) l.
Proof.
  unfold dict_update. induction d as [|[k x] d IH]; intros l; cbn [fold_left fst snd]; [now right|]. intros H. apply IH in H as [H|H]; [left; now right|]. apply in_dset in H as [[-> ->]|H]; [left; now left|now right].
Qed.
Lemma in_update_left n v d : forall l, (forall x, In (n, x) d -> x = v) -> In (n, v) l -> In (n, v) (dict_update l d).
Proof.
  unfold dict_update. induction d as [|[k x] d IH]; intros l Hd H; cbn [fold_left fst snd]; [exact H|]. apply IH; [intros y Hy; apply Hd; now right|].
  destruct (text_eqb n k) eqn:E; [apply text_eqb_eq in E as <-|apply text_eqb_neq in E; now apply in_dset_other]. rewrite (Hd x) by now left. apply in_dset_same.
Qed.

(** ** The cases *)
Lemma SignalInfo_inv p k name t address size instr process registers r : SignalInfo p k name t address size instr process registers = Ok r ->
  r_kind r = k /\ r_name r = name /\ r_text r = t /\ r_instr r = instr /\ findMappings p address process size = Ok (r_mappings r) /\
  exists regs, extractRegisters p process instr = Ok regs /\ r_registers r = dict_update regs registers.
Proof.
  unfold SignalInfo. destruct (extractRegisters p process instr) as [regs|]; [|discriminate]. cbn [bind]. destruct (findMappings p address process size) as [maps|]; [|discriminate]. intros [= <-]. cbn. eauto 10.
Qed.
Lemma SignalInfo_ok p k name t address size instr process registers regs maps :
  extractRegisters p process instr = Ok regs -> findMappings p address process size = Ok maps -> exists r, SignalInfo p k name t address size instr process registers = Ok r.
Proof. unfold SignalInfo. intros -> ->. cbn. eauto. Qed.

(** The class, the size and the registers of an access, from the instruction and the address *)
Definition source (p : platform) : text := if p_64bits p then T "rsi" else T "esi".
Definition dest (p : platform) : text := if p_64bits p then T "rdi" else T "edi".
Definition string_access (p : platform) (tg : target) (o : text) (a : Z) (acc : access) (regs : list (text * Z)) : Prop :=
  (exists e, is_ptrace_error e = true /\ acc = AnyAccess /\ regs = [] /\ (tg_getreg tg (source p) = Err e \/ (o = T "MOVS" /\ tg_getreg tg (dest p) = Err e))) \/
  (exists x y, o = T "MOVS" /\ tg_getreg tg (source p) = Ok x /\ tg_getreg tg (dest p) = Ok y /\ regs = [(source p, x); (dest p, y)] /\
               acc = if a =? y then WriteAccess else if a =? x then ReadAccess else AnyAccess) \/
  (exists x, o = T "SCAS" /\ tg_getreg tg (source p) = Ok x /\ regs = [(source p, x)] /\ acc = if a =? x then ReadAccess else AnyAccess).
Definition classified (p : platform) (tg : target) (instr : option instruction) (a : Z) (acc : access) (size : option Z) (regs : list (text * Z)) : Prop :=
  match instr with
  | None => acc = AnyAccess /\ size = None /\ regs = []
  | Some i =>
      let asm := in_text i in
      (write_form asm /\ acc = WriteAccess /\ size = None /\ regs = []) \/
      (~ write_form asm /\ (read_form asm \/ load_form asm) /\ acc = ReadAccess /\ size = None /\ regs = []) \/
      (~ write_form asm /\ ~ read_form asm /\ ~ load_form asm /\ (exists o, string_form o asm /\ string_access p tg o a acc regs) /\ (forall n, size = Some n <-> string_size asm n)) \/
      (~ write_form asm /\ ~ read_form asm /\ ~ load_form asm /\ (forall o, ~ string_form o asm) /\ acc = AnyAccess /\ size = None /\ regs = [])
  end.
Lemma none_not {A} (o : option A) (P : Prop) : ((exists m, o = Some m) <-> P) -> o = None -> ~ P.
Proof. intros H -> F. apply H in F as (m & F). discriminate F. Qed.
Lemma some_yes {A} (o : option A) (P : Prop) m : ((exists m, o = Some m) <-> P) -> o = Some m -> P.
Proof. intros H E. apply H. eauto. Qed.
Section Cases.
  Context (p : platform) (ns : namespace) (eval : text -> res pyval) (tg : target).
  (** What is known of the result of InvalidMemoryAccess() *)
  Definition accessed (a : Z) (instr : option instruction) (acc : access) (size : option Z) (regs : list (text * Z)) (r : reason) : Prop :=
    InvalidMemoryAccess p acc (Some (FInt a)) size instr regs (Some tg) = Ok r.
  Lemma dest_source : text_eqb (dest p) (source p) = false.
  Proof. unfold dest, source. destruct (p_64bits p); reflexivity. Qed.
  Lemma instr_cases i a : match memoryFaultInstr p eval tg i (Some a) with
    | Ok (Some r) => exists acc size regs, classified p tg (Some i) a acc size regs /\ accessed a (Some i) acc size regs r
    | Ok None => classified p tg (Some i) a AnyAccess None []
    | Err e => (exists acc size regs, classified p tg (Some i) a acc size regs /\ InvalidMemoryAccess p acc (Some (FInt a)) size (Some i) regs (Some tg) = Err e) \/
               (is_ptrace_error e = false /\ exists n, tg_getreg tg n = Err e)
    end.
  Proof.
    unfold memoryFaultInstr, classified, deref_access.
    destruct (re_search WRITE_REGEX (in_text i)) as [m|] eqn:E1.
    { pose proof (some_yes _ _ _ (write_iff _) E1) as W. apply write_size in E1 as ->. cbn [bind]. destruct (InvalidMemoryAccess p WriteAccess _ _ _ _ _) as [r|e] eqn:E; cbn [bind]; [|left]; exists WriteAccess, None, []; auto 10. }
    pose proof (none_not _ _ (write_iff _) E1) as NW. destruct (re_search READ_REGEX (in_text i)) as [m|] eqn:E2.
    { pose proof (some_yes _ _ _ (read_iff _) E2) as W. apply read_size in E2 as ->. cbn [bind]. destruct (InvalidMemoryAccess p ReadAccess _ _ _ _ _) as [r|e] eqn:E; cbn [bind]; [|left]; exists ReadAccess, None, []; (split; [right; left; auto 10|exact E]). }
    pose proof (none_not _ _ (read_iff _) E2) as NR. destruct (re_match LOAD_REGEX (in_text i)) as [m|] eqn:E3.
    { pose proof (some_yes _ _ _ (load_iff _) E3) as W. apply load_size in E3 as ->. cbn [bind]. destruct (InvalidMemoryAccess p ReadAccess _ _ _ _ _) as [r|e] eqn:E; cbn [bind]; [|left]; exists ReadAccess, None, []; (split; [right; left; auto 10|exact E]). }
    pose proof (none_not _ _ (load_iff _) E3) as NL. destruct (re_search MOVS_REGEX (in_text i)) as [m|] eqn:E4.
    2: { right. right. right. pose proof (none_not _ _ (movs_iff _) E4) as NM. split; [exact NW|]. split; [exact NR|]. split; [exact NL|]. split; [intros o Ho; apply NM; eauto|auto]. }
    pose proof (fun n => movs_size_iff _ _ n E4) as Hsize. apply movs_match in E4 as (o & Ho & Hop & _). unfold movsInstr. rewrite Hop. fold (source p) (dest p).
    set (size := movs_size (group SUFFIX (m_groups m))) in *.
    clearbody size.
    assert (forall acc regs, string_access p tg o a acc regs ->
      match (do r <- InvalidMemoryAccess p acc (Some (FInt a)) size (Some i) regs (Some tg); Ok (Some r)) with
      | Ok (Some r) => exists acc size regs, classified p tg (Some i) a acc size regs /\ accessed a (Some i) acc size regs r
      | Ok None => classified p tg (Some i) a AnyAccess None []
      | Err e => (exists acc size regs, classified p tg (Some i) a acc size regs /\ InvalidMemoryAccess p acc (Some (FInt a)) size (Some i) regs (Some tg) = Err e) \/
                 (is_ptrace_error e = false /\ exists n, tg_getreg tg n = Err e)
      end) as Hgo.
    { intros acc regs Hsa. destruct (InvalidMemoryAccess p acc _ _ _ _ _) as [r|e] eqn:E; cbn [bind]; [|left]; exists acc, size, regs; (split; [right; right; left; eauto 10|exact E]). }
    unfold classified in Hgo.
    destruct (tg_getreg tg (source p)) as [x|e] eqn:Ex; cbn [bind].
    - destruct Ho as (prefix & rest & Hpre & Hin & Hasm). cbn [In] in Hin. destruct Hin as [<-|[<-|[]]]; cbn [text_eqb].
      + change (text_eqb (T "MOVS") (T "MOVS")) with true. cbv iota. destruct (tg_getreg tg (dest p)) as [y|e] eqn:Ey; cbn [bind].
        * cbn [dset]. rewrite dest_source. apply Hgo. right. left. exists x, y. auto 10.
        * destruct (is_ptrace_error e) eqn:Ee; [|right; split; [exact Ee|eauto]]. apply Hgo. left. exists e. auto 10.
      + change (text_eqb (T "SCAS") (T "MOVS")) with false. cbv iota. apply Hgo. right. right. exists x. auto 10.
    - destruct (is_ptrace_error e) eqn:Ee; [|right; split; [exact Ee|eauto]]. apply Hgo. left. exists e. auto 10.
  Qed.
End Cases.
