(** * GSuiteProofs3: proofs about the tests of gdb.py: what a test gets; examples (C138). *)
From Coq Require Import ZArith List Ascii String Bool Lia.
From Verif Require Import PyBase PyFacts Platform IntModel RegexModel MapModel DbgModel TraceModel PyEval ExprModel SigModel SigProofs GdbModel ProcModel ProcSpec XrayModel SuiteModel OutSpec
  GSuiteModel GSuiteSpec GSuiteProofs GSuiteProofs2.
Import ListNotations.
Open Scope Z_scope.

Lemma byte_space_iff c : is_byte_space c = true <-> byte_space c.
Proof.
  unfold byte_space. destruct c as [[|] [|] [|] [|] [|] [|] [|] [|]]; (split; [intros H; vm_compute in H; first [discriminate|cbv; tauto]|intros H; cbv in H; repeat (destruct H as [H|H]; [first [discriminate|reflexivity]|]); contradiction]).
Qed.
Lemma rstrip_spec s : without_end s (bytes_rstrip s).
Proof.
  split.
  - destruct (rstrip_prefix s) as (sp & E & F). exists sp. split; [exact E|]. apply Forall_forall. intros c Hc. apply byte_space_iff. rewrite Forall_forall in F. now apply F.
  - unfold bytes_rstrip. intros r c E Hc. apply byte_space_iff in Hc. apply (f_equal (@rev ascii)) in E. rewrite rev_involutive, rev_app_distr in E. cbn in E.
    revert E. generalize (rev s). intros l. induction l as [|d l IH]; cbn [drop_spaces]; [discriminate|]. destruct (is_byte_space d) eqn:Hd; [exact IH|]. intros [= -> _]. congruence.
Qed.
Lemma rfind_spec t : forall s, (rfind t s = -1 /\ ~ occurs t s) \/ exists a b, s = a ++ t ++ b /\ rfind t s = Z.of_nat (List.length a) /\ forall a' b', s = a' ++ t ++ b' -> (List.length a' <= List.length a)%nat.
Proof.
  induction s as [|c s IH].
  - cbn [rfind]. change (negb (-1 =? -1)) with false. cbv iota. destruct (starts_with t []) eqn:E.
    + right. apply starts_inv in E as (r & E). exists [], r. split; [exact E|]. split; [reflexivity|]. intros a' b' E'. destruct a'; [cbn; lia|discriminate].
    + left. split; [reflexivity|]. intros (a & b & E'). destruct a; [|discriminate]. cbn in E'. symmetry in E'. apply app_eq_nil in E' as [-> _]. discriminate.
  - cbn [rfind]. cbv zeta. destruct IH as [[-> Hn]|(a & b & E & -> & Hm)].
    + change (negb ((if -1 =? -1 then -1 else -1 + 1) =? -1)) with false. cbv iota. destruct (starts_with t (c :: s)) eqn:E.
      * right. apply starts_inv in E as (r & E). exists [], r. split; [exact E|]. split; [reflexivity|]. intros [|d a'] b' E'; [cbn; lia|]. exfalso. injection E' as _ E'. apply Hn. now exists a', b'.
      * left. split; [reflexivity|]. intros ([|d a] & b & E'); [cbn [List.app] in E'; rewrite E', starts_app in E; discriminate|]. injection E' as _ E'. apply Hn. now exists a, b.
    + right. exists (c :: a), b. assert (Z.of_nat (List.length a) =? -1 = false) as -> by (apply Z.eqb_neq; lia). assert (Z.of_nat (List.length a) + 1 =? -1 = false) as -> by (apply Z.eqb_neq; lia). cbn [negb].
      split; [now rewrite E|]. split; [cbn [List.length]; lia|]. intros [|d a'] b' E'; [cbn; lia|]. injection E' as _ E'. apply Hm in E'. cbn. lia.
Qed.

Section Result.
  Context (p : platform) (ns : SigModel.namespace) (dis : bool) (show : gline -> text) (written : gcall -> text).
  Lemma session_ok env id command Q stdout : tested p ns dis show written env id command stdout -> one_command command -> writes p ns dis py_eval show written env id command Q ->
    exists out, Q out /\ stdout = PROMPT ++ out ++ PROMPT ++ newline :: written CQuit ++ T "Quit gdb." ++ [newline].
  Proof. intros (H1 & H2 & H3 & H4 & H5) Hc Hw. exact (session_text p ns dis py_eval show written env id command Q stdout H1 H2 H3 Hc Hw H5). Qed.
  Lemma command_ok env id command Q stdout : tested p ns dis show written env id command stdout -> one_command command -> writes p ns dis py_eval show written env id command Q ->
    exists out, Q out /\ (out <> [] -> ~ occurs (T "Traceback") out -> exists t, run_command 0 stdout = Ok t /\ without_end out t) /\
      (occurs (T "Traceback") out -> run_command 0 stdout = Err EAssertionError) /\
      (out = [] -> ~ occurs (T "Traceback") (written CQuit) -> run_command 0 stdout = Ok (PROMPT ++ newline :: written CQuit ++ T "Quit gdb.")).
  Proof.
    intros H Hc Hw. destruct (session_ok env id command Q stdout H Hc Hw) as (out & Ho & ->). destruct H as (_ & _ & _ & Hq & _). exists out. split; [exact Ho|]. split; [|split].
    - intros Hn Ht. exists (bytes_rstrip out). split; [exact (result_of written out Hq Hn Ht)|apply rstrip_spec].
    - intros Ht. apply (traceback_of written out Hq); [|exact Ht]. intros ->. destruct Ht as (a & b & E). destruct a; discriminate.
    - intros -> Ht. exact (result_empty written Hq Ht).
  Qed.
  Lemma dump_ok env id what out stdout : In what ["regs"; "backtrace"]%string -> tested p ns dis show written env id (T what) stdout -> (forall h, env h (CDump (T what) id) = AUnit) ->
    written (CDump (T what) id) = out -> out <> [] -> ~ occurs (T "Traceback") out -> gdb_test [] 0 stdout = true.
  Proof.
    intros Hi H He Hw Hn Ht. apply (test_ok p ns dis show written env id (T what) stdout [] (fun t => t = out)); [exact H| | |intros t ->; repeat split; assumption].
    - apply one_command_b. destruct Hi as [<-|[<-|[]]]; reflexivity.
    - apply dump_writes; [|exact He|exact Hw]. destruct Hi as [<-|[<-|[]]]; [do 3 right; left|do 4 right]; split; reflexivity.
  Qed.
End Result.

(** ** Examples *)
Definition asked_before (h : list (gcall * ans)) : bool := existsb (fun x => match x with (CInput, _) => true | _ => false end) h.
Definition ex_maps : list mapping := [Mapping 4096 8192 (T "r-xp") 0 8 1 12 (Some (T "/bin/x"))].
Definition env_ex (command : text) (h : list (gcall * ans)) (c : gcall) : ans :=
  match c with
  | CStart => AObj (Some 1%nat) | CProcesses => AProcs [1%nat] | CEcho => ABool false
  | CInput => if asked_before h then AEof else AText command
  | CMappings _ => AMaps ex_maps
  | _ => AUnit
  end.
Definition written_ex (c : gcall) : text :=
  match c with
  | CDump what _ => if text_eqb what (T "maps") then text_of_lines (dumpMaps linux_x86_64 ex_maps) else if text_eqb what (T "dbginfo") then text_of_lines (debuggerInfo 77) else T "IP=0x1: ??? ()" ++ [newline]
  | CDumpCode _ _ _ _ => T "CODE: 90 90" ++ [newline]
  | _ => []
  end.
Definition stdout_ex (command : text) : text := gdb_stdout (fun _ => []) written_ex (g_hist (fst (gdb_main linux_x86_64 [] false py_eval (env_ex command) 5 gdb_start))).
Lemma types_ex command : types (env_ex command) command.
Proof.
  split.
  - intros h H. cbn. unfold asked_before. destruct (existsb _ h) eqn:E; [|reflexivity]. apply existsb_exists in E as ([c a] & Hin & Hc). destruct c; try discriminate. exfalso. exact (H a Hin).
  - intros h a H. cbn. unfold asked_before. assert (existsb (fun x : gcall * ans => match x with (CInput, _) => true | _ => false end) h = true) as ->; [|reflexivity].
    apply existsb_exists. exists (CInput, a). split; [exact H|reflexivity].
Qed.
Lemma quiet_ex command : quiet (env_ex command) 1.
Proof. repeat split; eexists _, _; reflexivity. Qed.
Lemma tested_ex command : snd (gdb_main linux_x86_64 [] false py_eval (env_ex command) 5 gdb_start) = Ret tt ->
  tested linux_x86_64 [] false (fun _ => []) written_ex (env_ex command) 1 command (stdout_ex command).
Proof.
  intros H. split; [apply types_ex|]. split; [apply quiet_ex|]. split; [repeat split|]. split; [intros Ho; apply find_occurs in Ho; discriminate|].
  unfold stdout_ex. destruct (gdb_main linux_x86_64 [] false py_eval (env_ex command) 5 gdb_start) as [st r] eqn:E. cbn in H. subst r. exists 5%nat, st. split; [exact E|reflexivity].
Qed.
(** A test fails if anything is wrong. *)
Lemma gdb_test_iff patterns n s : gdb_test patterns n s = true <-> n = 0 /\ exists t, run_command n s = Ok t /\ ~ occurs (T "Traceback") t /\ forall r, In r patterns -> found r t = true.
Proof.
  unfold gdb_test, check_stdout. split.
  - intros H. destruct (run_command n s) as [t|e] eqn:E; [|discriminate]. split; [destruct (Z.eq_dec n 0) as [->|Hn]; [reflexivity|]; rewrite (result_status n s Hn) in E; discriminate|].
    exists t. split; [reflexivity|]. split; [|now apply forallb_forall]. intros Ho. apply find_occurs in Ho. revert E. unfold run_command. destruct (negb (n =? 0)); [discriminate|]. cbv zeta.
    match goal with |- (if contains _ ?x then _ else _) = _ -> _ => destruct (contains (T "Traceback") x) eqn:Ec; [discriminate|intros E; assert (x = t) as Ex by congruence; rewrite Ex in Ec] end.
    rewrite Ho in Ec. discriminate Ec.
  - intros (_ & t & -> & _ & H). now apply forallb_forall.
Qed.
