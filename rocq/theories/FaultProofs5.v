(** * FaultProofs5: the names and the texts of the reports. *)
From Coq Require Import ZArith List Ascii String Bool Lia.
From Verif Require Import PyBase PyFacts Platform IntModel RegexModel RegexSpec RegexProofs PyEval ExprModel SigModel MapModel TraceModel FaultModel FaultSpec FaultProofs FaultProofs2 FaultProofs3 FaultProofs4.
Import ListNotations.
Open Scope Z_scope.

Lemma access_said p acc address size instr regs process r : InvalidMemoryAccess p acc address size instr regs process = Ok r ->
  r_kind r = InvalidAccess acc /\ r_name r = access_title p acc address /\
  r_text r = access_text p acc address ++ match size with Some z => if z =? 0 then [] else size_text z | None => [] end.
Proof.
  unfold InvalidMemoryAccess. destruct address as [[z|[|z [|z2 l]]]|]; cbn [format_faddr bind]; try discriminate; intros H; apply SignalInfo_inv in H as (-> & -> & -> & _);
    (split; [reflexivity|]); (split; [destruct acc; reflexivity|]); destruct acc, size as [n|]; try destruct (n =? 0); rewrite ?app_nil_r, <- ?app_assoc; reflexivity.
Qed.
Lemma access_several p acc z1 z2 l size instr regs process : InvalidMemoryAccess p acc (Some (FList (z1 :: z2 :: l))) size instr regs process = Err ETypeError.
Proof. reflexivity. Qed.
Lemma all_titled p ns eval tg n r s : running_linux p = true -> tg_siginfo tg = Ok s -> analyze p ns eval tg n = Ok (Some r) -> r_name r = report_title p (si_addr s) (r_kind r).
Proof.
  intros Hl Hs. unfold analyze. destruct (is_signal ns (T "SIGSEGV") n || is_signal ns (T "SIGBUS") n).
  { destruct (memoryFault p eval tg) as [r1|] eqn:E; [|discriminate]. cbn [bind]. intros [= ->]. now apply (memory_titled p eval tg s). }
  destruct (is_signal ns (T "SIGFPE") n).
  { unfold mathError. destruct (getInstruction tg) as [[i|]|]; cbn [bind]; try discriminate. destruct (re_match DIV_REGEX (in_text i)); [|discriminate].
    destruct (new_DivisionByZero p (Some i) (Some tg)) as [r1|] eqn:E; [|discriminate]. cbn [bind]. intros [= ->]. apply SignalInfo_inv in E as (-> & -> & _). reflexivity. }
  destruct (is_signal ns (T "SIGCHLD") n).
  { unfold childExit, getSignalInfo. rewrite Hl, Hs. cbn [bind]. destruct (new_ChildExit _ _ _ _ _) as [r1|] eqn:E; [|discriminate]. cbn [bind]. intros [= ->]. apply SignalInfo_inv in E as (-> & -> & _). reflexivity. }
  destruct (is_signal ns (T "SIGABRT") n); [|discriminate].
  destruct (new_Abort p) as [r1|] eqn:E; [|discriminate]. cbn [bind]. intros [= ->]. apply SignalInfo_inv in E as (-> & -> & _). reflexivity.
Qed.
(** ** The two other reports of a memory fault *)
Lemma dict_update_last d k v : In (k, v) (dict_update d [(k, v)]).
Proof. cbn [dict_update fold_left fst snd]. induction d as [|(k', v') d IH]; cbn [dset]; [left; reflexivity|]. destruct (text_eqb k k') eqn:E; [|right; exact IH]. left. apply text_eqb_eq in E as ->. reflexivity. Qed.
Lemma stack_said p eval tg s r sp m : running_linux p = true -> tg_siginfo tg = Ok s -> memoryFault p eval tg = Ok r -> r_kind r = StackOverflow sp m ->
  r_text r = T "STACK OVERFLOW! Stack pointer is in " ++ map_str p m /\ In (T "<stack ptr>", sp) (r_registers r) /\ findMappings p (Some (FInt sp)) (Some tg) None = Ok (r_mappings r).
Proof.
  intros Hl Hs H Hk. apply (memory_cases p eval tg s Hl Hs) in H as [Hip H|instr maps m' sp' Hip Hi Hm Hf Hsp Ho H|instr maps acc size regs Hip Hi Hm Hst Hc H].
  - apply SignalInfo_inv in H as (H & _). congruence.
  - apply SignalInfo_inv in H as (H1 & H2 & H3 & H4 & H5 & rs & _ & H6). rewrite H1 in Hk. injection Hk as <- <-. split; [exact H3|]. split; [|exact H5]. rewrite H6. apply dict_update_last.
  - apply access_said in H as (H & _). congruence.
Qed.
Lemma ip_said p eval tg s r : running_linux p = true -> tg_siginfo tg = Ok s -> memoryFault p eval tg = Ok r -> r_kind r = InstructionError ->
  r_text r = T "UNABLE TO EXECUTE CODE AT " ++ formatAddress p (si_addr s) ++ T " (SEGMENTATION FAULT)" /\ r_instr r = None /\ r_registers r = [(T "<instr pointer>", si_addr s)] /\
  findMappings p (Some (FInt (si_addr s))) (Some tg) None = Ok (r_mappings r).
Proof.
  intros Hl Hs H Hk. apply (memory_cases p eval tg s Hl Hs) in H as [Hip H|instr maps m' sp' Hip Hi Hm Hf Hsp Ho H|instr maps acc size regs Hip Hi Hm Hst Hc H].
  - apply SignalInfo_inv in H as (H1 & H2 & H3 & H4 & H5 & rs & E & H6). split; [exact H3|]. split; [exact H4|]. split; [|exact H5]. cbn [extractRegisters] in E. injection E as <-. exact H6.
  - apply SignalInfo_inv in H as (H & _). congruence.
  - apply access_said in H as (H & _). congruence.
Qed.
(** ** Without siginfo *)
Lemma find_none maps : Forall (fun m => ~ is_stack m) maps -> findStack maps = None.
Proof.
  intros H. destruct (findStack maps) as [m|] eqn:E; [|reflexivity]. apply find_stack_spec in E as (before & after & -> & Hm & _). apply Forall_app in H as (_ & H). apply Forall_inv in H. contradiction.
Qed.
Lemma unplaced p eval tg maps : running_linux p = false -> tg_instr tg = None -> tg_mappings tg = Ok maps -> Forall (fun m => ~ is_stack m) maps ->
  memoryFault p eval tg = Ok (Reason (InvalidAccess AnyAccess) (T "invalid_mem_access") (T "Invalid memory access") None [] []).
Proof.
  intros Hl Hi Hm Hf. unfold memoryFault, getSignalInfo, getInstruction, stack_overflow. rewrite Hl, Hi, Hm. cbn [bind]. rewrite (find_none maps Hf). reflexivity.
Qed.

(** The address is the value of the dereferenced expression *)
Lemma before_char (c : ascii) : forall u v x y, ~ In c u -> ~ In c v -> u ++ c :: x = v ++ c :: y -> u = v /\ x = y.
Proof.
  induction u as [|a u IH]; intros [|b v] x y Hu Hv E; cbn [app] in E.
  - now injection E.
  - injection E as <- _. destruct Hv. now left.
  - injection E as -> _. destruct Hu. now left.
  - injection E as <- E. apply IH in E as (-> & ->); [auto| |]; intros F; [apply Hu|apply Hv]; now right.
Qed.
Lemma upper_no c u : upper_word u -> is_upper c = false -> ~ In c u.
Proof. intros H F Hin. unfold upper_word in H. rewrite Forall_forall in H. apply H in Hin. congruence. Qed.
Definition a_size (size : text) : Prop := size = [] \/ exists n, In n size_names /\ size = n ++ T " ".
Lemma size_no size : a_size size -> ~ In "["%char size.
Proof. intros [->|(n & Hn & ->)]; [intros []|]. unfold size_names in Hn. cbn [In] in Hn. destruct Hn as [<-|[<-|[<-|[<-|[]]]]]; cbn; intuition discriminate. Qed.
Lemma bracket_same head1 size1 e1 rest1 head2 size2 e2 rest2 : ~ In "["%char head1 -> ~ In "["%char head2 -> a_size size1 -> a_size size2 -> ~ In "]"%char e1 -> ~ In "]"%char e2 ->
  head1 ++ size1 ++ T "[" ++ e1 ++ T "]" ++ rest1 = head2 ++ size2 ++ T "[" ++ e2 ++ T "]" ++ rest2 -> e1 = e2.
Proof.
  intros H1 H2 Hs1 Hs2 He1 He2 E. rewrite !(app_assoc _ _ (T "[" ++ _)) in E. cbn [T list_ascii_of_string app] in E. apply before_char in E as (_ & E).
  - now apply before_char in E as (-> & _).
  - intros F. apply in_app_or in F as [F|F]; [now apply H1|now apply (size_no size1)].
  - intros F. apply in_app_or in F as [F|F]; [now apply H2|now apply (size_no size2)].
Qed.
Lemma deref_group size expr c' : deref_caps size expr [] c' -> group DEREF c' = Some expr.
Proof. intros [(_ & ->)|(n & _ & _ & ->)]; reflexivity. Qed.
Lemma deref_of_text expr d : deref_of expr d -> deref_text d.
Proof. intros (size & H1 & H2 & H3 & H4). exists size, expr. auto. Qed.
Lemma write_expr asm m expr : re_search WRITE_REGEX asm = Some m -> dereferences WriteAccess expr asm -> group DEREF (m_groups m) = Some expr.
Proof.
  intros H (op & suffix & d & rest & Hop & Hs & (size & Hsz & Hn & Hf & ->) & E). apply search_sound in H as (pre & E0 & _ & H & _).
  apply den_write in H as (Hb & op2 & suffix2 & size2 & expr2 & Hop2 & Hs2 & Hc & Hn2 & Hf2 & Ew). rewrite app_nil_r in Hb. apply (f_equal (@rev ascii)) in Hb. rewrite rev_involutive in Hb. subst pre.
  rewrite (deref_group _ _ _ Hc). f_equal. rewrite E in E0. cbn [rev app] in E0. rewrite Ew in E0. rewrite <- !app_assoc in E0. symmetry.
  assert (forall o u, In o [T "MOV"; T "TEST"] -> upper_word u -> ~ In "["%char (o ++ u ++ T " ")) as Hno.
  { intros o u Ho Hu F. apply in_app_or in F as [F|F]; [cbn [In] in Ho; destruct Ho as [<-|[<-|[]]]; cbn in F; intuition discriminate|]. apply in_app_or in F as [F|F]; [|cbn in F; intuition discriminate]. eapply upper_no in F; [exact F|exact Hu|reflexivity]. }
  eapply (bracket_same (op ++ suffix ++ T " ") size expr _ (op2 ++ suffix2 ++ T " ") size2 expr2); [now apply Hno|now apply Hno|exact Hsz|exact (deref_caps_text _ _ _ _ Hc)|exact Hf|exact Hf2|].
  rewrite <- !app_assoc. exact E0.
Qed.
Lemma read_expr asm m expr op d rest : re_search READ_REGEX asm = Some m -> upper_word op -> deref_of expr d -> asm = op ++ T " " ++ d ++ T "," ++ rest -> group DEREF (m_groups m) = Some expr.
Proof.
  intros H Hop (size & Hsz & Hn & Hf & ->) E. apply search_sound in H as (pre & E0 & _ & H & _).
  apply den_read in H as (Hb & op2 & size2 & expr2 & _ & Hop2 & Hc & Hn2 & Hf2 & Ew). rewrite app_nil_r in Hb. apply (f_equal (@rev ascii)) in Hb. rewrite rev_involutive in Hb. subst pre.
  rewrite (deref_group _ _ _ Hc). f_equal. rewrite E in E0. cbn [rev app] in E0. rewrite Ew in E0. rewrite <- !app_assoc in E0. symmetry.
  assert (forall u, upper_word u -> ~ In "["%char (u ++ T " ")) as Hno.
  { intros u Hu F. apply in_app_or in F as [F|F]; [|cbn in F; intuition discriminate]. eapply upper_no in F; [exact F|exact Hu|reflexivity]. }
  eapply (bracket_same (op ++ T " ") size expr _ (op2 ++ T " ") size2 expr2); [now apply Hno|now apply Hno|exact Hsz|exact (deref_caps_text _ _ _ _ Hc)|exact Hf|exact Hf2|].
  rewrite <- !app_assoc. exact E0.
Qed.
Lemma load_expr asm m expr op x d rest : re_match LOAD_REGEX asm = Some m -> upper_word op -> ~ In ","%char x -> deref_of expr d -> asm = op ++ T " " ++ x ++ T ", " ++ d ++ rest -> group DEREF (m_groups m) = Some expr.
Proof.
  intros H Hop Hx (size & Hsz & Hn & Hf & ->) E. apply match_at_sound in H as (E0 & _ & H). cbn [snd] in E0.
  apply den_load in H as (op2 & x2 & size2 & expr2 & _ & Hop2 & _ & Hx2 & Hc & Hn2 & Hf2 & Ew).
  rewrite (deref_group _ _ _ Hc). f_equal. rewrite E in E0. rewrite Ew in E0. rewrite <- !app_assoc in E0. symmetry.
  assert (forall u v, upper_word u -> ~ In ","%char v -> ~ In ","%char (u ++ T " " ++ v)) as Hno.
  { intros u v Hu Hv F. apply in_app_or in F as [F|F]; [eapply upper_no in F; [exact F|exact Hu|reflexivity]|]. cbn [T list_ascii_of_string app In] in F. destruct F as [F|F]; [discriminate F|now apply Hv]. }
  change (T ", ") with (","%char :: T " ") in E0. rewrite !(app_assoc op), !(app_assoc op2), !(app_assoc (op ++ _)), !(app_assoc (op2 ++ _)) in E0.
  cbn [app] in E0. apply before_char in E0 as (_ & E0); [|rewrite <- app_assoc; now apply Hno|rewrite <- app_assoc; now apply Hno].
  eapply (bracket_same (T " ") size expr _ (T " ") size2 expr2); [cbn; intuition discriminate|cbn; intuition discriminate|exact Hsz|exact (deref_caps_text _ _ _ _ Hc)|exact Hf|exact Hf2|].
  exact E0.
Qed.
Definition place (v : res pyval) : res (option faddr) :=
  match v with
  | Ok v => Ok (Some (match as_int v with Some z => FInt z | None => FList [] end))
  | Err EValueError => Ok None
  | Err e => Err e
  end.
Lemma eval_place eval tg m expr : group DEREF (m_groups m) = Some expr -> expr <> [] -> evalFaultAddress eval tg m = place (parseExpression eval (tg_getreg tg) expr).
Proof. intros E Hn. unfold evalFaultAddress. rewrite E. destruct expr; [contradiction|]. reflexivity. Qed.
Lemma dereferenced p eval tg i acc expr : dereferences acc expr (in_text i) ->
  memoryFaultInstr p eval tg i None = (do address <- place (parseExpression eval (tg_getreg tg) expr); do r <- InvalidMemoryAccess p acc address None (Some i) [] (Some tg); Ok (Some r)).
Proof.
  intros H. unfold memoryFaultInstr. destruct acc; [destruct H| |].
  - destruct H as (Hw & H). destruct (re_search WRITE_REGEX (in_text i)) as [m|] eqn:E; [destruct Hw; apply write_iff; eauto|]. destruct H as [(op & d & rest & Hl & Hop & Hd & Ha)|(Hr & op & x & d & rest & Hl & Hop & Hx & Hx' & Hd & Ha)].
    + assert (exists m, re_search READ_REGEX (in_text i) = Some m) as (m & Em) by (apply read_iff; exists op, d, rest; split; [exact Hl|]; split; [exact Hop|]; split; [exact (deref_of_text _ _ Hd)|exact Ha]).
      rewrite Em. unfold deref_access. rewrite (read_size _ _ Em), (eval_place eval tg m expr); [|now apply (read_expr _ _ _ op d rest Em)|destruct Hd as (? & _ & Hne & _); exact Hne].
      destruct (place _); reflexivity.
    + destruct (re_search READ_REGEX (in_text i)) as [m|] eqn:Er; [destruct Hr; apply read_iff; eauto|].
      assert (exists m, re_match LOAD_REGEX (in_text i) = Some m) as (m & Em) by (apply load_iff; exists op, x, d, rest; split; [exact Hl|]; split; [exact Hop|]; split; [exact Hx|]; split; [exact Hx'|]; split; [exact (deref_of_text _ _ Hd)|exact Ha]).
      rewrite Em. unfold deref_access. rewrite (load_size _ _ Em), (eval_place eval tg m expr); [|now apply (load_expr _ _ _ op x d rest Em)|destruct Hd as (? & _ & Hne & _); exact Hne].
      destruct (place _); reflexivity.
  - pose proof H as H'. destruct H' as (op & suffix & d & rest & Hop & Hs & Hd & Ha).
    assert (exists m, re_search WRITE_REGEX (in_text i) = Some m) as (m & Em) by (apply write_iff; exists op, suffix, d, rest; split; [exact Hop|]; split; [exact Hs|]; split; [exact (deref_of_text _ _ Hd)|exact Ha]).
    rewrite Em. unfold deref_access. rewrite (write_size _ _ Em), (eval_place eval tg m expr); [|now apply write_expr with (1 := Em)|destruct Hd as (? & _ & Hne & _); exact Hne].
    destruct (place _); reflexivity.
Qed.
Lemma no_siginfo p eval tg i acc expr maps : running_linux p = false -> tg_instr tg = Some (Ok i) -> dereferences acc expr (in_text i) -> tg_mappings tg = Ok maps -> Forall (fun m => ~ is_stack m) maps ->
  memoryFault p eval tg = (do address <- place (parseExpression eval (tg_getreg tg) expr); InvalidMemoryAccess p acc address None (Some i) [] (Some tg)).
Proof.
  intros Hl Hi Hd Hm Hf. unfold memoryFault, getSignalInfo, getInstruction, stack_overflow. rewrite Hl, Hi, Hm. cbn [bind]. rewrite (find_none maps Hf). cbn [bind]. rewrite (dereferenced p eval tg i acc expr Hd).
  destruct (place _) as [address|]; [|reflexivity]. cbn [bind]. destruct (InvalidMemoryAccess _ _ _ _ _ _ _); reflexivity.
Qed.
Lemma placed p eval tg i acc expr maps r : running_linux p = false -> tg_instr tg = Some (Ok i) -> dereferences acc expr (in_text i) -> tg_mappings tg = Ok maps -> Forall (fun m => ~ is_stack m) maps -> memoryFault p eval tg = Ok r ->
  r_kind r = InvalidAccess acc /\ exists address, r_name r = access_title p acc address /\ r_text r = access_text p acc address /\
  match parseExpression eval (tg_getreg tg) expr with
  | Ok (VInt z) => address = Some (FInt z)
  | Ok (VBool b) => address = Some (FInt (if b then 1 else 0))
  | Ok VTuple => address = Some (FList [])
  | Err e => e = EValueError /\ address = None
  end.
Proof.
  intros Hl Hi Hd Hm Hf. rewrite (no_siginfo p eval tg i acc expr maps Hl Hi Hd Hm Hf). destruct (parseExpression eval (tg_getreg tg) expr) as [v|e].
  - cbn [place bind]. intros H. apply access_said in H as (H1 & H2 & H3). rewrite app_nil_r in H3. split; [exact H1|]. eexists. split; [exact H2|]. split; [exact H3|]. destruct v; reflexivity.
  - destruct e; cbn [place bind]; try discriminate. intros H. apply access_said in H as (H1 & H2 & H3). rewrite app_nil_r in H3. split; [exact H1|]. exists None. auto.
Qed.
Lemma placed_error p eval tg i acc expr maps e : running_linux p = false -> tg_instr tg = Some (Ok i) -> dereferences acc expr (in_text i) -> tg_mappings tg = Ok maps -> Forall (fun m => ~ is_stack m) maps ->
  parseExpression eval (tg_getreg tg) expr = Err e -> e <> EValueError -> memoryFault p eval tg = Err e.
Proof. intros Hl Hi Hd Hm Hf E Hne. rewrite (no_siginfo p eval tg i acc expr maps Hl Hi Hd Hm Hf), E. destruct e; try reflexivity. contradiction. Qed.
Definition bsd_fault (t : string) : target := Target 42 some_regs (Ok 4194304) (Ok 140737488355000) (Ok [code_map]) (Some (Ok (instr t))) (Err ENotImplementedError).
(** *** The exact choice of the mappings *)
Lemma mappings_ends p tg maps a size : tg_mappings tg = Ok maps -> maps <> [] ->
  exists f, findMappings p (Some (FInt a)) (Some tg) size = Ok (report p a (match size with Some s => s | None => 0 end) (filter f maps)) /\
    forall m, f m = true <-> mp_start m <= a < mp_end m \/ mp_start m <= a + match size with Some s => s | None => 0 end - 1 < mp_end m.
Proof.
  intros Hm Hn. unfold findMappings. rewrite Hm. cbn [bind]. destruct maps as [|m0 maps]; [congruence|]. cbn [flat_map]. rewrite app_nil_r.
  set (sz := match size with Some s => s | None => 0 end). unfold find_mapping, report, range_name. eexists. split.
  - f_equal. destruct (1 <? sz); rewrite ?app_nil_r; reflexivity.
  - intros m. cbn beta. rewrite orb_true_iff, !andb_true_iff, !Z.leb_le, !Z.ltb_lt. lia.
Qed.
(** *** Errors of the disassembler that are not PtraceErrors *)
Lemma instruction_errors p eval tg e s : tg_instr tg = Some (Err e) -> is_ptrace_error e = false ->
  mathError p tg = Err e /\ (running_linux p = true -> tg_siginfo tg = Ok s -> memoryFault p eval tg = Err e).
Proof.
  intros Hi He. unfold mathError, memoryFault, getSignalInfo, getInstruction. rewrite Hi, He. split; [reflexivity|]. intros Hl Hs. rewrite Hl, Hs. reflexivity.
Qed.
