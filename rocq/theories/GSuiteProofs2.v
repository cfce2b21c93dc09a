(** * GSuiteProofs2: proofs about the tests of gdb.py: each test (C138). *)
From Coq Require Import ZArith List Ascii String Bool Lia.
From Verif Require Import PyBase PyFacts Platform IntModel RegexModel RegexSpec RegexProofs MapModel MapProofs2 DbgModel TraceModel PyEval ExprModel GdbModel ProcModel ProcSpec ProcProofs2 PyIntFacts XrayModel XrayProofs2 SuiteModel OutSpec SuiteSpec SuiteProofs
  GSuiteModel GSuiteSpec GSuiteProofs.
Import ListNotations.
Open Scope Z_scope.

(** ** Lines of the output, without the spaces at its end *)
Lemma stripped_line out t : (exists before x c after, out = before ++ t ++ x ++ c :: after /\ is_byte_space c = false /\ (before = [] \/ exists b, before = b ++ [z2b 10])) -> has_line (bytes_rstrip out) t.
Proof.
  intros (before & x & c & after & -> & Hc & Hb). assert (before ++ t ++ x ++ c :: after = (before ++ t ++ x) ++ c :: after) as -> by now rewrite <- !app_assoc.
  destruct (rstrip_keeps (before ++ t ++ x) c after Hc) as (r & ->). exists before, (x ++ c :: r). split; [now rewrite <- !app_assoc|exact Hb].
Qed.
(** A line that goes on with a character that is not a space *)
Lemma line_in l t c u : In (t ++ c :: u) l -> is_byte_space c = false -> has_line (bytes_rstrip (text_of_lines l)) (t ++ [c]).
Proof.
  intros H Hc. apply in_lines in H as (b & a & -> & Hb). destruct (rstrip_keeps (b ++ t) c (u ++ z2b 10 :: a) Hc) as (r & E).
  assert (b ++ (t ++ c :: u) ++ z2b 10 :: a = (b ++ t) ++ c :: u ++ z2b 10 :: a) as -> by (rewrite <- !app_assoc; reflexivity). rewrite E. exists b, r. split; [|exact Hb]. now rewrite <- !app_assoc.
Qed.
(** A line with a later line that has such a character *)
Lemma line_before l1 t u l2 x c y l3 : is_byte_space c = false -> has_line (bytes_rstrip (text_of_lines (l1 ++ (t ++ u) :: l2 ++ (x ++ c :: y) :: l3))) t.
Proof.
  intros Hc. apply stripped_line. exists (text_of_lines l1), (u ++ z2b 10 :: text_of_lines l2 ++ x), c, (y ++ z2b 10 :: text_of_lines l3). split; [|split; [exact Hc|apply lines_end]].
  rewrite lines_app. cbn [text_of_lines]. rewrite lines_app. cbn [text_of_lines]. repeat (rewrite <- app_assoc; cbn [List.app]). reflexivity.
Qed.
Lemma found_digits s t d : has_line s (t ++ [d]) -> is_digit d = true -> found (RCat (rtext t) rdigits) s = true.
Proof.
  intros H Hd. apply (found_line _ _ _ H). intros b rest. exists [], (t ++ [d]), []. split; [now rewrite app_nil_r|]. cbn [den]. exists t, [d], []. split; [reflexivity|].
  split; [now apply den_text|]. apply den_plus_set. repeat split; [discriminate|now repeat constructor].
Qed.
Lemma digit_space d : is_digit d = true -> is_byte_space d = false.
Proof.
  unfold is_digit, is_byte_space, in_range. intros H. apply andb_prop in H as [H1 H2]. apply Z.leb_le in H1. apply Z.leb_le in H2.
  destruct (Z.leb_spec (b2z d) 13); [lia|]. rewrite andb_false_r. cbn [orb]. apply Ascii.eqb_neq. intros ->. cbv in H1. now apply H1.
Qed.
Lemma int_first n : 0 <= n -> exists d r, str_int n = d :: r /\ is_digit d = true.
Proof.
  intros H. pose proof (str_int_digit n H) as F. pose proof (PyIntFacts.str_int_nonempty n) as N. destruct (str_int n) as [|d r]; [congruence|]. inversion F; subst. eauto.
Qed.
Lemma number_line l t n u : 0 <= n -> In (t ++ str_int n ++ u) l -> found (RCat (rtext t) rdigits) (bytes_rstrip (text_of_lines l)) = true.
Proof.
  intros H Hin. destruct (int_first n H) as (d & r & E & Hd). rewrite E in Hin. apply (found_digits _ _ d); [|exact Hd]. exact (line_in l t d (r ++ u) Hin (digit_space d Hd)).
Qed.
Lemma occurs_int n : ~ occurs (T "Traceback") (str_int n).
Proof.
  intros (a & b & E). pose proof (PyIntFacts.str_int_chars n) as F. rewrite E in F. apply Forall_app in F as [_ F]. cbn in F. inversion F as [|? ? Hx]. discriminate.
Qed.
Lemma one_command_b command : (negb (text_eqb command []) && negb (text_eqb command (T "quit")) && negb (char_in command ";"%char) &&
  match command with c :: _ => negb (is_space c) | [] => true end && match rev command with c :: _ => negb (is_space c) | [] => true end)%bool = true -> one_command command.
Proof.
  intros H. apply andb_prop in H as [H H5]. apply andb_prop in H as [H H4]. apply andb_prop in H as [H H3]. apply andb_prop in H as [H1 H2]. repeat split.
  - intros ->. discriminate.
  - intros ->. discriminate.
  - intros Hin. unfold char_in in H3. assert (existsb (Ascii.eqb ";"%char) command = true) as Hx by (apply existsb_exists; exists ";"%char; split; [exact Hin|reflexivity]). rewrite Hx in H3. discriminate.
  - intros c r ->. now apply negb_true_iff.
  - intros c r ->. rewrite rev_app_distr in H5. now apply negb_true_iff.
Qed.

Section Tests.
  Context (p : platform) (ns : SigModel.namespace) (dis : bool) (show : gline -> text) (written : gcall -> text).
  Notation tested := (tested p ns dis show written).
  Notation writes := (writes p ns dis py_eval show written).

  Lemma test_ok env id command stdout patterns Q : tested env id command stdout -> one_command command -> writes env id command Q ->
    (forall out, Q out -> out <> [] /\ ~ occurs (T "Traceback") out /\ check_stdout patterns (bytes_rstrip out) = true) -> gdb_test patterns 0 stdout = true.
  Proof.
    intros (H1 & H2 & H3 & H4 & H5) Hc Hw HQ. destruct (session_text p ns dis py_eval show written env id command Q stdout H1 H2 H3 Hc Hw H5) as (out & Ho & ->).
    destruct (HQ out Ho) as (Hn & Ht & Hp). unfold gdb_test. now rewrite (result_of written out H4 Hn Ht).
  Qed.
  Lemma dump_writes env id what out : (dispatch (T what) = KProc /\ what = "proc"%string \/ dispatch (T what) = KMaps /\ what = "maps"%string \/ dispatch (T what) = KDbginfo /\ what = "dbginfo"%string \/
      dispatch (T what) = KRegs /\ what = "regs"%string \/ dispatch (T what) = KBacktrace /\ what = "backtrace"%string) ->
    (forall h, env h (CDump (T what) id) = AUnit) -> written (CDump (T what) id) = out -> writes env id (T what) (fun t => t = out).
  Proof.
    intros Hd He <- h. exists (GState id [] [] None ((CDump (T what) id, AUnit) :: h)), true, [(CDump (T what) id, AUnit)].
    assert (run p ns dis py_eval env (dispatch (T what)) = dump env what) as Hr by (destruct Hd as [[-> ->]|[[-> ->]|[[-> ->]|[[-> ->]|[-> ->]]]]]; reflexivity).
    split; [|split; [reflexivity|split; [cbn; intuition discriminate|cbn [flat_map call_text]; apply app_nil_r]]].
    unfold execute, gbind. rewrite Hr. unfold dump, gbind, gget, none, ask_unit, gbind. cbn [g_process]. rewrite (ask_ok env _ _ _ (He _)) by discriminate. reflexivity.
  Qed.

  Theorem maps_ok env id maps stdout : tested env id (T "maps") stdout -> (forall h, env h (CDump (T "maps") id) = AUnit) ->
    written (CDump (T "maps") id) = text_of_lines (dumpMaps p maps) -> maps <> [] -> ~ occurs (T "Traceback") (text_of_lines (dumpMaps p maps)) -> gdb_test maps_patterns 0 stdout = true.
  Proof.
    intros H He Hw Hm Ht. eapply (test_ok env id (T "maps")); [exact H|apply one_command_b; reflexivity|eapply (dump_writes env id "maps"); [right; left; split; reflexivity|exact He|exact Hw]|].
    intros out ->. destruct maps as [|m maps]; [congruence|]. split; [discriminate|split; [exact Ht|]].
    unfold check_stdout, maps_patterns. cbn [forallb]. rewrite andb_true_r. apply found_text.
    assert (exists u, map_str p m = formatAddress p (mp_start m) ++ "-"%char :: u) as (u & Eu)
      by (unfold map_str; destruct (mp_pathname m) as [[|c0 n0]|]; eexists; repeat (rewrite <- app_assoc; cbn [List.app]); reflexivity).
    apply stripped_line. exists [], (formatAddress p (mp_start m)), "-"%char. eexists. split; [|split; [reflexivity|now left]].
    cbn [dumpMaps map text_of_lines]. rewrite Eu. repeat (rewrite <- app_assoc; cbn [List.app]). reflexivity.
  Qed.
  Theorem dbginfo_ok env id getpid stdout : tested env id (T "dbginfo") stdout -> (forall h, env h (CDump (T "dbginfo") id) = AUnit) ->
    written (CDump (T "dbginfo") id) = text_of_lines (debuggerInfo getpid) -> 0 <= getpid -> gdb_test dbginfo_patterns 0 stdout = true.
  Proof.
    intros H He Hw Hp. eapply (test_ok env id (T "dbginfo")); [exact H|apply one_command_b; reflexivity|eapply (dump_writes env id "dbginfo"); [right; right; left; split; reflexivity|exact He|exact Hw]|].
    intros out ->. rewrite info_lines. split; [discriminate|split].
    - cbn [text_of_lines]. intros Ho. rewrite <- app_assoc in Ho.
      change (T "Debugger process ID: ") with (T "Debugger process ID:" ++ [" "%char]) in Ho. rewrite <- app_assoc in Ho. change ([" "%char] ++ ?x) with (" "%char :: x) in Ho.
      apply occurs_sep in Ho as [Ho|Ho]; [apply find_occurs in Ho; discriminate| |cbv; intuition discriminate].
      apply occurs_sep in Ho as [Ho|Ho]; [exact (occurs_int _ Ho)|apply find_occurs in Ho; discriminate|cbv; intuition discriminate].
    - unfold check_stdout, dbginfo_patterns. cbn [forallb]. apply andb_true_intro. split; [|apply andb_true_intro; split; [|rewrite andb_true_r]].
      + apply (number_line _ _ getpid []); [exact Hp|]. left. now rewrite app_nil_r.
      + assert (has_line (bytes_rstrip (text_of_lines [T "Debugger process ID: " ++ str_int getpid; T "python-ptrace version 0.9.10"; T "Website: http://python-ptrace.readthedocs.io/"])) (T "python-ptrace version 0.9")) as Hl
          by (apply (line_in _ (T "python-ptrace version 0.") "9"%char (T ".10")); [right; now left|reflexivity]).
        apply (found_line _ _ _ Hl). intros b rest. exists [], (T "python-ptrace version 0.9"), []. split; [reflexivity|].
        apply den_cat_cons; [discriminate|]. exists (T "python-ptrace version "), (T "0.9"), []. split; [reflexivity|]. split; [now apply den_text|].
        apply den_cat_cons; [discriminate|]. exists (T "0"), (T ".9"), []. split; [reflexivity|]. split; [apply den_plus_set; repeat split; [discriminate|repeat constructor]|].
        apply den_cat_cons; [discriminate|]. exists (T "."), (T "9"), []. split; [reflexivity|]. split; [now apply den_char|].
        apply den_plus_set; repeat split; [discriminate|repeat constructor].
      + apply found_text. apply (has_line_app _ _ (T "h")). apply (line_in _ (T "Website: ") "h"%char (T "ttp://python-ptrace.readthedocs.io/")); [right; right; now left|reflexivity].
  Qed.
  Theorem proc_ok env id pid P repr lines stdout : running_linux p = true -> tested env id (T "proc") stdout -> (forall h, env h (CDump (T "proc") id) = AUnit) ->
    dumpProcessInfo P repr p pid (Some 160) = Ok lines -> written (CDump (T "proc") id) = text_of_lines lines -> readable P repr pid -> 0 <= pid -> ~ occurs (T "Traceback") (text_of_lines lines) ->
    gdb_test proc_patterns 0 stdout = true.
  Proof.
    intros Hl H He Hi Hw (program & state & numbers & args & env0 & cwd & env_text & l1 & l2 & l3 & ur & ue & us & uf & gr & ge & gs & gf & R1 & R2 & R3 & R4 & R5 & R6 & R7 & R8 & R9 & R10 & R11 & R12 & R13 & R14 & R15 & R16 & R17 & R18 & R19) Hp Ht.
    rewrite (info_spec P repr p pid (Some 160) program state numbers args env0 cwd env_text l1 l2 l3 ur ue us uf gr ge gs gf Hl R1 R2 R3 R4 R5 R6 R7 R8 R9 R10 R11 R12 R13 R14 R15 R16 R17) in Hi. apply (f_equal (fun r => match r with Ok l => l | Err _ => [] end)) in Hi. cbv beta iota in Hi. subst lines.
    eapply (test_ok env id (T "proc")); [exact H|apply one_command_b; reflexivity|eapply (dump_writes env id "proc"); [left; split; reflexivity|exact He|exact Hw]|].
    intros out ->. split; [discriminate|split; [exact Ht|]]. unfold check_stdout, proc_patterns. cbn [forallb].
    assert (exists r, owner_line (T "Group") gr ge = T "Group identifier: " ++ str_int gr ++ r) as (rg & Eg) by (unfold owner_line; eexists; repeat (rewrite <- app_assoc; cbn [List.app]); reflexivity).
    assert (exists r, owner_line (T "User") ur ue = T "User identifier: " ++ str_int ur ++ r) as (ru & Eu) by (unfold owner_line; eexists; repeat (rewrite <- app_assoc; cbn [List.app]); reflexivity).
    rewrite Eg, Eu.
    apply andb_true_intro; split; [|apply andb_true_intro; split; [|apply andb_true_intro; split; [|apply andb_true_intro; split; [|rewrite andb_true_r]]]].
    - eapply number_line; [exact Hp|]. left. reflexivity.
    - apply found_text. match goal with |- has_line (bytes_rstrip (text_of_lines (?a :: (?t ++ ?u) :: ?b :: ?r))) _ => exact (line_before [a] t u [] [] "P"%char (T "rocess command line: " ++ repr_list repr args) (tl (b :: r)) eq_refl) end.
    - apply found_text. match goal with |- has_line (bytes_rstrip (text_of_lines (?a :: ?b :: ?c :: (?t ++ ?u) :: ?d :: ?r))) _ => exact (line_before [a; b; c] t u [] [] "P"%char (T "rocess working directory: " ++ cwd) r eq_refl) end.
    - eapply number_line; [exact R18|]. do 5 right. now left.
    - eapply number_line; [exact R19|]. do 6 right. now left.
  Qed.

  (** print *)
  Lemma parse_three g r : parseInteger p py_eval g r (T "1+2") = Ok 3.
  Proof. destruct p as [os c b w]; destruct c, w; vm_compute; reflexivity. Qed.
  Lemma word_text : exists t, formatWordHex p 3 = T "0x" ++ t /\ ~ occurs (T "Traceback") (formatWordHex p 3).
  Proof. destruct p as [os c b w]; destruct c, w; (eexists; split; [vm_compute; reflexivity|intros Ho; apply find_occurs in Ho; vm_compute in Ho; discriminate]). Qed.
  Definition three_lines : text := text_of_lines [T "Decimal: 3"; T "Hexadecimal: " ++ formatWordHex p 3].
  Theorem print_ok env id stdout : tested env id (T "print 1+2") stdout ->
    (forall h, exists maps, env h (CMappings id) = AMaps maps /\ Forall (fun m => ~ (mp_start m <= 3 < mp_end m)) maps) -> written (CMappings id) = [] -> gdb_test print_patterns 0 stdout = true.
  Proof.
    intros H He Hw. apply (test_ok env id (T "print 1+2") stdout print_patterns (fun t => t = three_lines)); [exact H|apply one_command_b; reflexivity| |].
    - intros h. set (h1 := (CLog (LText (T "Decimal: " ++ str_int 3)), AUnit) :: h). set (h2 := (CLog (LText (T "Hexadecimal: " ++ formatWordHex p 3)), AUnit) :: h1).
      destruct (He h2) as (maps & E & F). exists (GState id [] [] None ((CMappings id, AMaps maps) :: h2)), true, (rev ((CMappings id, AMaps maps) :: firstn 2 h2)).
      split; [|split; [|split]].
      + unfold execute, gbind. change (dispatch (T "print 1+2")) with (KPrint (T "1+2")). cbn [run]. unfold print_, or_message, gbind, gtry, gbind, g_parseInteger, gbind, gget. rewrite parse_three. cbn [glift gret].
        unfold glog at 1. cbv beta iota. unfold glog at 1. cbv beta iota. cbn [push g_process]. unfold ask_maps, gbind.
        change (push (CLog (LText (T "Hexadecimal: " ++ formatWordHex p 3))) AUnit (push (CLog (LText (T "Decimal: " ++ str_int 3))) AUnit (GState id [] [] None h))) with (GState id [] [] None h2).
        rewrite (ask_ok env _ (GState id [] [] None h2) _ E) by discriminate. cbn [gret].
        assert (forall st, giter (fun m => if map_contains m 3 then glog (LMapping m) else gret tt) maps st = (st, Ret tt)) as ->; [|reflexivity].
        clear E. induction F as [|m l Hm _ IH]; intros st; [reflexivity|]. cbn [giter]. unfold gbind.
        assert (map_contains m 3 = false) as -> by (unfold map_contains; apply not_true_iff_false; intros Hc; apply Hm; apply andb_prop in Hc as [C1 C2]; apply Z.leb_le in C1; apply Z.ltb_lt in C2; lia).
        cbn [gret]. apply IH.
      + cbn [g_hist]. rewrite rev_involutive. reflexivity.
      + intros a. rewrite <- in_rev. cbn. intuition discriminate.
      + unfold h2, h1. cbn [firstn rev List.app flat_map call_text]. rewrite Hw. unfold three_lines. cbn [text_of_lines]. rewrite ?app_nil_r. repeat (rewrite <- app_assoc; cbn [List.app]). reflexivity.
    - intros out ->. destruct word_text as (t & Et & Ht). split; [discriminate|split].
      + unfold three_lines. cbn [text_of_lines]. intros Ho. apply occurs_sep in Ho as [Ho|Ho]; [apply find_occurs in Ho; discriminate| |cbv; intuition discriminate].
        rewrite <- app_assoc in Ho. change (T "Hexadecimal: ") with (T "Hexadecimal:" ++ [" "%char]) in Ho. rewrite <- app_assoc in Ho. change ([" "%char] ++ ?x) with (" "%char :: x) in Ho.
        apply occurs_sep in Ho as [Ho|Ho]; [apply find_occurs in Ho; discriminate| |cbv; intuition discriminate].
        apply occurs_sep in Ho as [Ho|Ho]; [contradiction|apply find_occurs in Ho; discriminate|cbv; intuition discriminate].
      + unfold check_stdout, print_patterns. cbn [forallb]. rewrite andb_true_r. apply found_text. apply stripped_line. exists [], [], "H"%char. eexists. split; [|split; [reflexivity|now left]].
        unfold three_lines. cbn [text_of_lines]. repeat (rewrite <- app_assoc; cbn [List.app]). reflexivity.
  Qed.

  (** where *)
  Theorem where_ok env id D read bps ip log r stdout : tested env id (T "where") stdout -> (forall h, env h (CDumpCode id None None false) = AUnit) ->
    dumpCode p D read bps (Ok ip) None None false = (log, r) -> written (CDumpCode id None None false) = text_of_lines (log_lines log) ->
    D <> None \/ (exists code, read ip 32 = Ok code) -> ~ occurs (T "Traceback") (text_of_lines (log_lines log)) -> gdb_test where_patterns 0 stdout = true.
  Proof.
    intros H He Hd Hw HD Ht.
    assert (exists t l, log_lines log = (T "CODE:" ++ t) :: l) as (t & l & El).
    { unfold dumpCode in Hd. destruct D as [D|].
      - unfold dumpCode_ in Hd. cbn in Hd. destruct (lbind _ _) as [l0 r0]. destruct r0 as [u|e]; cbn in Hd; [injection Hd as <- _; now exists [], (log_lines l0)|].
        destruct (is_ptrace_error e); injection Hd as <- _; eexists [], _; cbn; reflexivity.
      - destruct HD as [HD|(code & E)]; [congruence|]. unfold dumpCode_ in Hd. cbn in Hd. unfold MIN_CODE_SIZE in Hd. rewrite E in Hd. cbn in Hd. injection Hd as <- _. eexists (T " " ++ _), []. cbn. reflexivity. }
    apply (test_ok env id (T "where") stdout where_patterns (fun t => t = text_of_lines (log_lines log))); [exact H|apply one_command_b; reflexivity| |].
    - intros h. exists (GState id [] [] None ((CDumpCode id None None false, AUnit) :: h)), true, [(CDumpCode id None None false, AUnit)].
      split; [|split; [reflexivity|split; [cbn; intuition discriminate|cbn [flat_map call_text]; now rewrite app_nil_r]]].
      unfold execute, gbind. change (dispatch (T "where")) with (KWhere []). cbn [run]. unfold where_, or_message, gbind, gtry, gbind, g_parseIntegers, gbind, gget. assert (forall g r, parseIntegers p py_eval g r [] = Ok []) as -> by reflexivity. cbn [glift gret nth_error g_process]. unfold ask_unit, gbind.
      rewrite (ask_ok env _ _ _ (He _)) by discriminate. reflexivity.
    - intros out ->. split; [rewrite El; discriminate|split; [exact Ht|]]. unfold check_stdout, where_patterns. cbn [forallb]. rewrite andb_true_r. apply found_text.
      rewrite El. apply (line_in _ (T "CODE") ":"%char t); [now left|reflexivity].
  Qed.
End Tests.
