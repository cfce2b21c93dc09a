(** * FaultProofs4: mappings of a report, division, end of a child, dispatch, and the witnesses. *)
From Coq Require Import ZArith List Ascii String Bool Lia.
From Verif Require Import PyBase PyFacts Platform IntModel RegexModel PyEval SigModel DbgSpec SigProofs MapModel TraceModel FaultModel FaultSpec FaultProofs FaultProofs2 FaultProofs3.
Import ListNotations.
Open Scope Z_scope.
Ltac conjs := repeat match goal with |- _ /\ _ => split end.

(** ** Mappings *)
Lemma mappings_known p tg maps a size : tg_mappings tg = Ok maps -> maps <> [] -> 1 <= size -> Forall (fun m => size <= mp_end m - mp_start m) maps ->
  findMappings p (Some (FInt a)) (Some tg) (Some size) = Ok (report p a size (filter (overlap a size) maps)).
Proof.
  intros Hm Hn Hs Hf. unfold findMappings. rewrite Hm. cbn [bind]. destruct maps as [|m maps]; [congruence|]. cbn [flat_map]. rewrite app_nil_r. f_equal. now apply find_mapping_exact.
Qed.
Lemma mappings_unknown p tg maps a : tg_mappings tg = Ok maps -> maps <> [] -> Forall (fun m => mp_start m < mp_end m /\ mp_end m <> a) maps ->
  findMappings p (Some (FInt a)) (Some tg) None = Ok (report p a 1 (filter (overlap a 1) maps)).
Proof.
  intros Hm Hn Hf. unfold findMappings. rewrite Hm. cbn [bind]. destruct maps as [|m maps]; [congruence|]. cbn [flat_map]. rewrite app_nil_r. f_equal. now apply find_mapping_small.
Qed.
Lemma mappings_sound p tg maps a size : tg_mappings tg = Ok maps -> maps <> [] -> 1 <= size ->
  exists hits, findMappings p (Some (FInt a)) (Some tg) (Some size) = Ok (report p a size hits) /\ (forall m, In m hits -> In m maps /\ touches a size m) /\
    (forall m, In m maps -> mp_start m <= a < mp_end m -> In m hits).
Proof.
  intros Hm Hn Hs. exists (filter (found size a) maps). split.
  - unfold findMappings. rewrite Hm. cbn [bind]. destruct maps as [|m maps]; [congruence|]. cbn [flat_map]. rewrite app_nil_r. f_equal. apply find_mapping_report.
  - split; intros m H.
    + apply filter_In in H as [H1 H2]. split; [exact H1|]. now apply (found_touches size).
    + intros Ha. apply filter_In. split; [exact H|]. apply found_spec. now left.
Qed.
Lemma mappings_several p tg maps l size : tg_mappings tg = Ok maps -> maps <> [] ->
  findMappings p (Some (FList l)) (Some tg) size = Ok (flat_map (fun a => match findMappings p (Some (FInt a)) (Some tg) size with Ok t => t | Err _ => [] end) l).
Proof.
  intros Hm Hn. unfold findMappings. rewrite Hm. cbn [bind]. destruct maps as [|m maps]; [congruence|]. f_equal. apply flat_map_ext. intros a. cbn [flat_map]. now rewrite app_nil_r.
Qed.
(** The report of a fault is that of its address *)
Lemma fault_mappings p eval tg s r acc i maps : running_linux p = true -> tg_siginfo tg = Ok s -> memoryFault p eval tg = Ok r -> r_kind r = InvalidAccess acc -> r_instr r = Some i -> (forall o, ~ string_form o (in_text i)) ->
  tg_mappings tg = Ok maps -> maps <> [] -> Forall (fun m => mp_start m < mp_end m /\ mp_end m <> si_addr s) maps -> r_mappings r = report p (si_addr s) 1 (filter (overlap (si_addr s) 1) maps).
Proof.
  intros Hl Hsi H Hk Hi Hno Hm Hn Hf. destruct (class_of p eval tg s Hl Hsi r acc H Hk) as (size & regs & Hc & Ha & _). rewrite Hi in Hc. assert (size = None) as ->.
  { destruct Hc as [H1|[H1|[H1|H1]]]; try tauto. destruct H1 as (_ & _ & _ & (o & Ho & _) & _). now apply Hno in Ho. }
  apply kind_access in Ha as (_ & _ & _ & _ & Hma & _). rewrite (mappings_unknown p tg maps _ Hm Hn Hf) in Hma. congruence.
Qed.

(** ** SIGFPE *)
Lemma math_iff p tg i : tg_instr tg = Some (Ok i) -> (forall n, only_ptrace_errors (tg_getreg tg n)) ->
  (div_form (in_text i) -> exists r, mathError p tg = Ok (Some r) /\ r_kind r = DivisionByZero /\ r_text r = T "Division by zero" /\ r_instr r = Some i) /\
  (~ div_form (in_text i) -> mathError p tg = Ok None).
Proof.
  intros Hi Hg. unfold mathError, getInstruction. rewrite Hi. cbn [bind]. split.
  - intros Hd. pose proof Hd as Hd2. apply div_iff in Hd as (m & ->). destruct (extract_ok p tg i) as (regs & Hr); [|exact Hg|].
    + intros _. destruct Hd2 as (rest & [E|E]); rewrite E; [exists (upper rest), (T "DIV")|exists (upper rest), (T "IDIV")]; (split; [cbn; intuition discriminate|reflexivity]).
    + unfold new_DivisionByZero. destruct (SignalInfo p DivisionByZero _ _ _ _ _ _ _) as [r|e] eqn:E.
      * apply SignalInfo_inv in E as (E1 & _ & E2 & E3 & _). exists r. cbn. auto.
      * unfold SignalInfo in E. rewrite Hr in E. cbn in E. discriminate E.
  - intros Hd. destruct (re_match DIV_REGEX (in_text i)) as [m|] eqn:E; [|reflexivity]. exfalso. apply Hd, div_iff. eauto.
Qed.
Lemma math_none p tg : tg_instr tg = None \/ (exists e, tg_instr tg = Some (Err e) /\ is_ptrace_error e = true) -> mathError p tg = Ok None.
Proof. unfold mathError, getInstruction. intros [->|(e & -> & ->)]; reflexivity. Qed.

(** ** SIGCHLD *)
Lemma child_reason p ns tg s : running_linux p = true -> tg_siginfo tg = Ok s ->
  exists r, childExit p ns tg = Ok r /\ r_kind r = ChildExit (Some (si_pid s)) (Some (si_status s)) (Some (si_uid s)) /\ r_text r = formatProcessStatus ns (si_status s) (T "Child process " ++ str_int (si_pid s)).
Proof. intros Hl Hs. unfold childExit, getSignalInfo. rewrite Hl, Hs. cbn. eexists. split; [reflexivity|]. split; reflexivity. Qed.
Lemma child_right p ns tg s e : running_linux p = true -> tg_siginfo tg = Ok s -> si_status s = chld_status e -> match e with ChildExited c => c = 0 | ChildKilled n => 1 <= n < 127 end ->
  exists r, childExit p ns tg = Ok r /\ r_text r = chld_text ns (si_pid s) e.
Proof.
  intros Hl Hs He Hv. destruct (child_reason p ns tg s Hl Hs) as (r & H1 & _ & H2). exists r. split; [exact H1|]. rewrite H2, He. unfold chld_text. destruct e as [c|n]; cbn [chld_status].
  - subst c. change 0 with (encode (Exited 0)) at 1. rewrite status_text by (cbn; lia). now rewrite <- app_assoc.
  - replace n with (encode (Killed n false)) at 1 by (cbn; lia). rewrite status_text by (cbn; lia). now rewrite app_nil_r, <- app_assoc.
Qed.
Lemma child_wrong p ns tg s c : running_linux p = true -> tg_siginfo tg = Ok s -> si_status s = c -> 1 <= c < 127 ->
  exists r, childExit p ns tg = Ok r /\ r_text r = chld_text ns (si_pid s) (ChildKilled c).
Proof. intros Hl Hs Hc Hr. now apply (child_right p ns tg s (ChildKilled c)). Qed.

(** ** Witnesses *)
Definition instr (t : string) : instruction := Instr 4194304 3 (T t) [].
Definition code_map : mapping := Mapping 4194304 4198400 (T "r-xp") 0 8 1 42 (Some (T "/bin/prog")).
Definition stack_map : mapping := Mapping 140737488224256 140737488359424 (T "rw-p") 0 0 0 0 (Some (T "[stack]")).
Definition two_maps : list mapping := [code_map; stack_map].
(** rax = 0, the other registers are 4096 *)
Definition some_regs (n : text) : res Z :=
  if text_eqb n (T "rax") then Ok 0 else if text_eqb n (T "rdi") then Ok 64 else if char_in n "1"%char || char_in n "8"%char || char_in n "9"%char then Ok 77 else Ok 4096.
Definition fault (t : string) (addr : Z) : target := Target 42 some_regs (Ok 4194304) (Ok 140737488355000) (Ok two_maps) (Some (Ok (instr t))) (Ok (SigInfo addr 0 0 0)).
Definition no_eval (_ : text) : res pyval := Err ESyntaxError.
Definition report_of (t : string) (addr : Z) : res reason := memoryFault linux_x86_64 no_eval (fault t addr).

Lemma write_ex : exists r, report_of "MOV [RAX], RBX" 0 = Ok r /\ r_kind r = InvalidAccess WriteAccess /\ r_name r = T "invalid_write-null" /\ r_text r = T "Invalid write to NULL" /\
  r_mappings r = [T "NULL is not mapped in memory"] /\ r_registers r = [(T "rax", 0); (T "rbx", 4096)].
Proof. eexists. split; [vm_compute; reflexivity|]. conjs; vm_compute; reflexivity. Qed.
Lemma ip_ex : exists r, memoryFault linux_x86_64 no_eval (Target 42 some_regs (Ok 16) (Ok 140737488355000) (Ok two_maps) None (Ok (SigInfo 16 0 0 0))) = Ok r /\ r_kind r = InstructionError /\
  r_text r = T "UNABLE TO EXECUTE CODE AT 0x0000000000000010 (SEGMENTATION FAULT)".
Proof. eexists. split; [vm_compute; reflexivity|]. conjs; vm_compute; reflexivity. Qed.
Lemma stack_ex : exists r, memoryFault linux_x86_64 no_eval (Target 42 some_regs (Ok 4194304) (Ok 140737488224248) (Ok two_maps) (Some (Ok (instr "PUSH RAX"))) (Ok (SigInfo 140737488224248 0 0 0))) = Ok r /\
  r_kind r = StackOverflow 140737488224248 stack_map.
Proof. eexists. split; [vm_compute; reflexivity|]. vm_compute. reflexivity. Qed.
Lemma ret_fails : memoryFault linux_x86_64 no_eval (fault "RET" 16) = Err EIndexError /\ readable (fault "RET" 16).
Proof.
  split; [vm_compute; reflexivity|]. unfold readable, fault. cbn [tg_mappings tg_sp tg_ip tg_getreg tg_instr]. conjs; try exact I; try (eexists; reflexivity).
  intros n. unfold some_regs. destruct (text_eqb n (T "rax")); [exact I|]. destruct (text_eqb n (T "rdi")); [exact I|]. now destruct (_ || _).
Qed.
Lemma bsd_movs_fails : exists tg, tg_mappings tg = Ok two_maps /\ (forall n, exists v, tg_getreg tg n = Ok v) /\ tg_instr tg = Some (Ok (instr "MOVSB ")) /\ memoryFault freebsd_x86_64 no_eval tg = Err ETypeError.
Proof.
  exists (Target 42 (fun _ => Ok 16) (Ok 0) (Ok 140737488355000) (Ok two_maps) (Some (Ok (instr "MOVSB "))) (Err ENotImplementedError)).
  conjs; [reflexivity|intros n; exists 16; reflexivity|reflexivity|vm_compute; reflexivity].
Qed.
Lemma access_wrong : exists t acc r, In (T t, acc) intel_access /\ report_of t 0 = Ok r /\ r_kind r <> InvalidAccess acc.
Proof.
  exists "TEST [RAX], RBX"%string, ReadAccess. eexists. split; [cbn; auto 10|]. split; [vm_compute; reflexivity|]. vm_compute. discriminate.
Qed.
Lemma access_wrong_add : exists r r2, report_of "ADD [RAX], RBX" 0 = Ok r /\ r_kind r = InvalidAccess ReadAccess /\ report_of "INC QWORD [RAX]" 0 = Ok r2 /\ r_kind r2 = InvalidAccess AnyAccess.
Proof. do 2 eexists. conjs; [vm_compute; reflexivity|vm_compute; reflexivity|vm_compute; reflexivity|vm_compute; reflexivity]. Qed.
(** SCASB reads at rdi *)
Lemma scas_wrong : exists r, report_of "REPNZ SCASB " 64 = Ok r /\ some_regs (T "rdi") = Ok 64 /\ r_kind r = InvalidAccess AnyAccess.
Proof. eexists. conjs; [vm_compute; reflexivity|vm_compute; reflexivity|vm_compute; reflexivity]. Qed.
Lemma movs_ex : exists r, report_of "REP MOVSD " 64 = Ok r /\ r_kind r = InvalidAccess WriteAccess /\ r_text r = T "Invalid write to 0x0000000000000040 (size=4 bytes)" /\ r_registers r = [(T "rsi", 4096); (T "rdi", 64)].
Proof. eexists. split; [vm_compute; reflexivity|]. conjs; vm_compute; reflexivity. Qed.
Lemma size_wrong : exists t size r, In (T t, size) intel_size /\ report_of t 0 = Ok r /\ r_text r = T "Invalid write to NULL" /\ r_text r <> T "Invalid write to NULL (size=" ++ str_int size ++ T " bytes)".
Proof.
  exists "MOV DWORD [RAX], 0x0"%string, 4. eexists. split; [cbn; auto 10|]. split; [vm_compute; reflexivity|]. split; [vm_compute; reflexivity|]. vm_compute. discriminate.
Qed.
Lemma mapping_end_wrong : exists maps a r, Forall (fun m => ~ touches a 1 m) maps /\ memoryFault linux_x86_64 no_eval (Target 42 some_regs (Ok 4194304) (Ok 140737488355000) (Ok maps) (Some (Ok (instr "MOV [RAX], RBX"))) (Ok (SigInfo a 0 0 0))) = Ok r /\
  r_mappings r = [T "0x0000000000401000 is part of 0x0000000000400000-0x0000000000401000 => /bin/prog (r-xp)"].
Proof.
  exists two_maps, 4198400. eexists. split.
  - repeat constructor; intros (x & H1 & H2); cbn in H2; lia.
  - split; [vm_compute; reflexivity|]. vm_compute. reflexivity.
Qed.
Lemma mapping_inside_wrong : exists tg a size m, tg_mappings tg = Ok [m] /\ touches a size m /\ 1 <= size /\
  findMappings linux_x86_64 (Some (FInt a)) (Some tg) (Some size) = Ok (report linux_x86_64 a size []).
Proof.
  exists (Target 42 some_regs (Ok 0) (Ok 0) (Ok [Mapping 4096 4098 (T "rw-p") 0 0 0 0 None]) None (Err ENotImplementedError)), 4095, 4, (Mapping 4096 4098 (T "rw-p") 0 0 0 0 None).
  split; [reflexivity|]. split; [exists 4096; cbn; lia|]. split; [lia|]. vm_compute. reflexivity.
Qed.
Lemma numbered_missing : exists i r, tg_instr (fault "MOV RBX, [R8]" 77) = Some (Ok i) /\ operands (in_text i) (T "RBX, [R8]") /\ word_of (T "RBX, [R8]") (T "R8") /\ In (T "R8") numbered_registers /\
  report_of "MOV RBX, [R8]" 77 = Ok r /\ some_regs (T "r8") = Ok 77 /\ r_registers r = [(T "rbx", 4096)].
Proof.
  eexists. eexists. split; [reflexivity|]. split; [exists (T "MOV"); split; [cbn; intuition discriminate|reflexivity]|]. split.
  - exists (T "RBX, ["), (T "]"). split; [reflexivity|]. split.
    + intros t' c E. apply (f_equal (@rev ascii)) in E. rewrite rev_app_distr in E. cbn in E. injection E as <- _. reflexivity.
    + intros t' c E. cbn in E. injection E as <- _. reflexivity.
  - split; [cbn; auto|]. split; [vm_compute; reflexivity|]. split; vm_compute; reflexivity.
Qed.
Lemma numbered_unknown p w : In w numbered_registers -> ~ known_register p w.
Proof.
  intros Hin [(x & y & z & -> & _ & Hy & _)|[H|H]].
  - cbn in Hin. repeat (destruct Hin as [Hin|Hin]; [first [discriminate Hin|injection Hin as <- <- <-; discriminate Hy]|]). contradiction.
  - cbn in Hin, H. repeat (destruct Hin as [<-|Hin]; [repeat (destruct H as [H|H]; [discriminate H|]); contradiction|]). contradiction.
  - cbn in Hin, H. repeat (destruct Hin as [<-|Hin]; [repeat (destruct H as [H|H]; [discriminate H|]); contradiction|]). contradiction.
Qed.
Lemma overflow_wrong : exists r, mathError linux_x86_64 (Target 42 (fun n => if text_eqb n (T "ebx") then Ok 4294967295 else Ok 0) (Ok 4194304) (Ok 0) (Ok []) (Some (Ok (instr "IDIV EBX"))) (Ok (SigInfo 4194304 0 0 0))) = Ok (Some r) /\
  r_text r = T "Division by zero" /\ r_registers r = [(T "ebx", 4294967295)].
Proof. eexists. split; [vm_compute; reflexivity|]. conjs; vm_compute; reflexivity. Qed.
Lemma exit_wrong : exists tg r, tg_siginfo tg = Ok (SigInfo 0 99 1000 (chld_status (ChildExited 1))) /\ childExit linux_x86_64 linux_signals tg = Ok r /\ r_text r = T "Child process 99 killed by signal SIGHUP".
Proof. exists (Target 42 some_regs (Ok 0) (Ok 0) (Ok []) None (Ok (SigInfo 0 99 1000 1))). eexists. conjs; [reflexivity|vm_compute; reflexivity|vm_compute; reflexivity]. Qed.

(** ** Dispatch and display *)
Lemma dispatch p eval tg n : analyze p linux_signals eval tg n =
  if (n =? 11) || (n =? 7) then (do r <- memoryFault p eval tg; Ok (Some r))
  else if n =? 8 then mathError p tg
  else if n =? 17 then (do r <- childExit p linux_signals tg; Ok (Some r))
  else if n =? 6 then Ok (Some (Reason Abort (T "abort") (T "Program received signal SIGABRT, Aborted.") None [] []))
  else Ok None.
Proof.
  unfold analyze, is_signal. change (dget text_eqb (T "SIGSEGV") linux_signals) with (Some 11). change (dget text_eqb (T "SIGBUS") linux_signals) with (Some 7).
  change (dget text_eqb (T "SIGFPE") linux_signals) with (Some 8). change (dget text_eqb (T "SIGCHLD") linux_signals) with (Some 17). change (dget text_eqb (T "SIGABRT") linux_signals) with (Some 6).
  cbv iota. rewrite (Z.eqb_sym 11), (Z.eqb_sym 7), (Z.eqb_sym 8), (Z.eqb_sym 17), (Z.eqb_sym 6). reflexivity.
Qed.
Lemma display_form p ns eval tg n lines : display p ns eval tg n = Ok lines ->
  exists r, analyze p ns eval tg n = Ok r /\
    lines = [repeat "-"%char 60; T "PID: " ++ str_int (tg_pid tg); T "Signal: " ++ signalName ns n] ++
            match r with
            | None => []
            | Some r => [r_text r] ++ match r_kind r with ChildExit _ _ (Some uid) => [T "Signal sent by user " ++ str_int uid] | _ => [] end ++
                        match r_instr r with Some i => [T "- instruction: " ++ in_text i] | None => [] end ++
                        map (fun m => T "- mapping: " ++ m) (r_mappings r) ++ map (fun kv => T "- register " ++ fst kv ++ T "=" ++ formatWordHex p (snd kv)) (r_registers r)
            end ++ [repeat "-"%char 60].
Proof.
  unfold display. destruct (analyze p ns eval tg n) as [r|]; [|discriminate]. cbn [bind]. intros [= <-]. exists r. split; [reflexivity|]. destruct r as [r|]; reflexivity.
Qed.
