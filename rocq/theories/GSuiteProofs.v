(** * GSuiteProofs: proofs about the tests of gdb.py (C138). *)
From Coq Require Import ZArith List Ascii String Bool Lia.
From Verif Require Import PyBase PyFacts Platform RegexModel MapModel DbgModel GdbModel ProcModel ProcSpec OutSpec GSuiteModel GSuiteSpec.
Import ListNotations.
Open Scope Z_scope.

(** ** Texts *)
Lemma starts_app t r : starts_with t (t ++ r) = true.
Proof. induction t as [|c t IH]; [reflexivity|]. cbn. now rewrite Ascii.eqb_refl. Qed.
Lemma starts_inv : forall t s, starts_with t s = true -> exists r, s = t ++ r.
Proof.
  induction t as [|c t IH]; intros s H; [now exists s|]. destruct s as [|d s]; [discriminate|]. cbn in H. apply andb_prop in H as [E H].
  apply Ascii.eqb_eq in E as ->. apply IH in H as (r & ->). now exists r.
Qed.
Lemma find_occurs t : forall s, contains t s = true <-> occurs t s.
Proof.
  unfold contains. induction s as [|c s IH]; cbn [find_sub].
  - destruct (starts_with t []) eqn:E.
    + split; [|reflexivity]. intros _. apply starts_inv in E as (r & Er). exists [], r. exact Er.
    + split; [discriminate|]. intros (a & b & Er). destruct a; [|discriminate]. cbn in Er. symmetry in Er. apply app_eq_nil in Er as [-> _]. discriminate.
  - destruct (starts_with t (c :: s)) eqn:E.
    + split; [|reflexivity]. intros _. apply starts_inv in E as (r & Er). now exists [], r.
    + transitivity (occurs t s).
      * rewrite <- IH. destruct (find_sub t s); split; congruence.
      * split; intros (a & b & H); [exists (c :: a), b; now rewrite H|]. destruct a as [|d a]; [cbn in H; rewrite H in E; now rewrite starts_app in E|].
        injection H as _ ->. now exists a, b.
Qed.
Lemma not_contains t s : ~ occurs t s -> contains t s = false.
Proof. intros H. destruct (contains t s) eqn:E; [|reflexivity]. apply find_occurs in E. contradiction. Qed.
(** rfind is the last occurrence. *)
Lemma rfind_none t : forall s, ~ occurs t s -> rfind t s = -1.
Proof.
  induction s as [|c s IH]; intros H; cbn [rfind].
  - change (negb (-1 =? -1)) with false. cbv iota. destruct (starts_with t []) eqn:E; [|reflexivity]. apply starts_inv in E as (r & Er). exfalso. apply H. now exists [], r.
  - rewrite IH by (intros (a & b & ->); apply H; now exists (c :: a), b). change (negb (-1 =? -1)) with false. cbv iota zeta.
    change (negb ((if -1 =? -1 then -1 else -1 + 1) =? -1)) with false. cbv iota.
    destruct (starts_with t (c :: s)) eqn:E; [|reflexivity]. apply starts_inv in E as (r & Er). exfalso. apply H. now exists [], r.
Qed.
Lemma rfind_last t c r : ~ occurs (c :: t) (t ++ r) -> forall a, rfind (c :: t) (a ++ (c :: t) ++ r) = Z.of_nat (List.length a).
Proof.
  intros H. induction a as [|d a IH].
  - cbn [List.app]. remember (t ++ r) as s. cbn [rfind]. rewrite (rfind_none _ _ H). cbv zeta. change (negb ((if -1 =? -1 then -1 else -1 + 1) =? -1)) with false. cbv iota.
    cbn [starts_with]. rewrite Ascii.eqb_refl. subst s. now rewrite starts_app.
  - change ((d :: a) ++ (c :: t) ++ r) with (d :: (a ++ (c :: t) ++ r)). remember (a ++ (c :: t) ++ r) as s. cbn [rfind]. rewrite IH. cbv zeta.
    assert (Z.of_nat (List.length a) =? -1 = false) as -> by (apply Z.eqb_neq; lia). assert (Z.of_nat (List.length a) + 1 =? -1 = false) as -> by (apply Z.eqb_neq; lia).
    cbn [negb List.length]. lia.
Qed.
(** A character that is not in the text separates its occurrences. *)
Lemma occurs_sep t x a b : ~ In x t -> occurs t (a ++ x :: b) -> occurs t a \/ occurs t b.
Proof.
  intros Hx (u & v & E). revert a E. induction u as [|d u IH]; intros a E.
  - left. revert a E. cbn [List.app]. revert Hx. clear. intros Hx a. exists []. cbn [List.app]. revert a E. induction t as [|c t IH]; intros a E; [now exists a|].
    destruct a as [|e a]; cbn [List.app] in E; injection E as E1 E2; [exfalso; apply Hx; now left|]. destruct (IH (fun H => Hx (or_intror H)) a E2) as (b' & ->). exists b'. now subst.
  - destruct a as [|e a]; cbn [List.app] in E; injection E as E1 E2.
    + right. now exists u, v.
    + destruct (IH a E2) as [(u' & v' & ->)|H]; [left; now exists (e :: u'), v'|now right].
Qed.
Lemma prompt_tail q : ~ occurs PROMPT q -> ~ occurs PROMPT (T "gdb) " ++ newline :: q ++ T "Quit gdb." ++ [newline]).
Proof.
  intros Hq H. apply occurs_sep in H as [H|H]; [apply find_occurs in H; discriminate| |cbv; intuition discriminate].
  change (T "Quit gdb." ++ [newline]) with ("Q"%char :: (T "uit gdb." ++ [newline])) in H. apply occurs_sep in H as [H|H]; [contradiction|apply find_occurs in H; discriminate|cbv; intuition discriminate].
Qed.
Lemma slice_all a r : slice_to (Z.of_nat (List.length a)) (a ++ r) = a.
Proof. unfold slice_to. destruct (Z.ltb_spec (Z.of_nat (List.length a)) 0); [lia|]. rewrite Nat2Z.id, firstn_app, firstn_all, Nat.sub_diag. cbn [firstn]. apply app_nil_r. Qed.
(** rstrip *)
Lemma drop_spaces_eq s : exists sp, s = sp ++ drop_spaces s /\ Forall (fun c => is_byte_space c = true) sp.
Proof.
  induction s as [|c s (sp & E & F)]; [now exists []|]. cbn [drop_spaces]. destruct (is_byte_space c) eqn:Hc; [|now exists []].
  exists (c :: sp). split; [cbn [List.app]; now rewrite <- E|now constructor].
Qed.
Lemma rstrip_prefix s : exists sp, s = bytes_rstrip s ++ sp /\ Forall (fun c => is_byte_space c = true) sp.
Proof.
  destruct (drop_spaces_eq (rev s)) as (sp & E & F). exists (rev sp). unfold bytes_rstrip. split; [|now apply Forall_rev]. rewrite <- rev_app_distr, <- E. symmetry. apply rev_involutive.
Qed.
Lemma rstrip_keeps a c b : is_byte_space c = false -> exists b', bytes_rstrip (a ++ c :: b) = a ++ c :: b'.
Proof.
  intros Hc. unfold bytes_rstrip. rewrite rev_app_distr. cbn [rev]. rewrite <- app_assoc. cbn [List.app].
  destruct (drop_spaces_eq (rev b)) as (sp & _ & _). assert (forall l, exists l', drop_spaces (l ++ c :: rev a) = l' ++ c :: rev a) as H.
  { induction l as [|d l IH]; cbn [List.app drop_spaces]; [rewrite Hc; now exists []|]. destruct (is_byte_space d); [exact IH|now exists (d :: l)]. }
  destruct (H (rev b)) as (l' & ->). exists (rev l'). rewrite rev_app_distr. cbn [rev]. rewrite rev_involutive, <- app_assoc. reflexivity.
Qed.

(** ** The session *)
Section Run.
  Context (p : platform) (ns : SigModel.namespace) (dis : bool) (eval : text -> res PyEval.pyval) (show : gline -> text) (written : gcall -> text).
  Notation gdb_run := (gdb_run p ns dis eval show written).
  Notation writes := (writes p ns dis eval show written).
  Definition whole (out : text) : text := PROMPT ++ out ++ PROMPT ++ newline :: written CQuit ++ T "Quit gdb." ++ [newline].

  Lemma lstrip_id s : (forall c r, s = c :: r -> is_space c = false) -> lstrip s = s.
  Proof. destruct s as [|c s]; [reflexivity|]. intros H. cbn. now rewrite (H c s eq_refl). Qed.
  Lemma strip_id s : (forall c r, s = c :: r -> is_space c = false) -> (forall c r, s = r ++ [c] -> is_space c = false) -> strip s = s.
  Proof.
    intros H1 H2. unfold strip, rstrip. rewrite (lstrip_id s H1). rewrite lstrip_id; [apply rev_involutive|]. intros c r E. apply (H2 c (rev r)).
    apply (f_equal (@rev ascii)) in E. rewrite rev_involutive in E. exact E.
  Qed.
  Lemma split_none x s : ~ In x s -> split_char x s = [s].
  Proof.
    induction s as [|c s IH]; intros H; [reflexivity|]. cbn [split_char]. rewrite IH by (intros Hi; apply H; now right).
    destruct (Ascii.eqb c x) eqn:E; [|reflexivity]. apply Ascii.eqb_eq in E. exfalso. apply H. now left.
  Qed.
  Lemma text_neq a b : a <> b -> text_eqb a b = false.
  Proof. intros H. destruct (text_eqb a b) eqn:E; [|reflexivity]. apply text_eqb_eq in E. contradiction. Qed.

  Lemma ask_ok env c st a : env (g_hist st) c = a -> (forall x, a <> ARaise x) -> ask env c st = (push c a st, Ret a).
  Proof. intros <- H. unfold ask. destruct (env (g_hist st) c) eqn:E; try reflexivity. now destruct (H x). Qed.

  Theorem session_text env id command Q stdout : types env command -> quiet env id -> silent written -> one_command command -> writes env id command Q -> gdb_run env stdout ->
    exists out, Q out /\ stdout = whole out.
  Proof.
    intros [T1 T2] (Q1 & Q2 & Q3 & Q4) (S1 & S2 & S3) (C1 & C2 & C3 & C4 & C5) W (fuel & st & R & ->).
    destruct (Q2 [(CStart, AObj (Some id))]) as (x1 & l1 & P1).
    set (h0 := [(CStart, AObj (Some id))]) in *.
    set (h1 := (CProcesses, AProcs (x1 :: l1)) :: h0).
    set (h2 := (CEcho, ABool false) :: h1). set (h3 := (CInput, AText command) :: h2).
    destruct (W h3) as (st3 & ok & calls & E & Hh & Hi & HQ).
    assert (env h2 CInput = AText command) as I1 by (apply T1; intros a; cbv [h2 h1 h0]; cbn [In]; intuition discriminate).
    exists (flat_map (call_text show written) calls). split; [exact HQ|].
    unfold gdb_main, runDebugger, gbind, gtry, ask_obj, gbind in R. rewrite (ask_ok env CStart gdb_start _ (Q1 _)) in R by discriminate.
    cbn [push gret gmodify set_process set_previous g_hist gdb_start g_last g_follow g_process g_previous] in R. change (push CStart (AObj (Some id)) gdb_start) with (GState 0 [] [] None h0) in R.
    change (set_previous None (set_process id (GState 0 [] [] None h0))) with (GState id [] [] None h0) in R.
    assert (forall fuel, session p ns dis eval env (S fuel) (GState id [] [] None h0) =
      match run_line p ns dis eval env command (GState id [] [] None h3) with (st', Ret b) => if b : bool then (st', Ret tt) else session p ns dis eval env fuel st' | (st', Raise x) => (st', Raise x) end) as Hs.
    { intros n. cbn [session]. unfold gbind at 1, ask_procs, gbind at 1. rewrite (ask_ok env CProcesses (GState id [] [] None h0) _ P1) by discriminate. cbn [gret]. unfold gbind at 1. unfold mainLoop, gbind at 1, read_input, gtry, restoreTerminal, gbind at 1, gbind at 1, ask_bool, gbind at 1.
      rewrite (ask_ok env CEcho _ _ (Q3 _)) by discriminate. cbn [gret]. unfold gbind at 1. change (push CEcho (ABool false) (push CProcesses (AProcs (x1 :: l1)) (GState id [] [] None h0))) with (GState id [] [] None h2).
      rewrite (ask_ok env CInput (GState id [] [] None h2) _ I1) by discriminate. cbn [gret]. rewrite (strip_id command C4 C5). change (push CInput (AText command) (GState id [] [] None h2)) with (GState id [] [] None h3).
      destruct command as [|c0 r0]; [congruence|]. destruct (run_line p ns dis eval env (c0 :: r0) (GState id [] [] None h3)) as [st' [[|]|x]]; reflexivity. }
    assert (exists st4, run_line p ns dis eval env command (GState id [] [] None h3) = (st4, Ret false) /\ g_hist st4 = rev calls ++ h3) as (st4 & Hr & Hh4).
    { unfold run_line, gbind at 1, gmodify. cbn [set_previous g_process g_last g_follow g_hist]. rewrite (text_neq _ _ C2). rewrite (split_none _ _ C3).
      unfold gtry. cbn [execute_all]. unfold gbind, gtry. rewrite (strip_id command C4 C5). change (set_previous None (GState id [] [] None h3)) with (GState id [] [] None h3). rewrite E. destruct ok; cbn; eexists; (split; [reflexivity|exact Hh]). }
    destruct fuel as [|fuel]; [discriminate|]. rewrite Hs, Hr in R. cbv iota in R. destruct fuel as [|fuel]; [discriminate|].
    cbn [session] in R. unfold gbind at 1 in R. unfold ask_procs, gbind at 1 in R. destruct (Q2 (g_hist st4)) as (x2 & l2 & P2).
    rewrite (ask_ok env CProcesses st4 _ P2) in R by discriminate. cbn [gret] in R. unfold gbind at 1 in R. unfold mainLoop, gbind at 1, read_input, gtry, restoreTerminal, gbind at 1, gbind at 1, ask_bool, gbind at 1 in R.
    rewrite (ask_ok env CEcho _ _ (Q3 _)) in R by discriminate. cbn [gret] in R. unfold gbind at 1 in R.
    match type of R with context [ask env CInput ?s] => rewrite (ask_ok env CInput s AEof) in R; [|apply (T2 _ (AText command)); cbn [g_hist push]; rewrite Hh4; right; right; apply in_or_app; right; now left|discriminate] end.
    cbn [gret] in R. unfold ask_unit, gbind in R. rewrite (ask_ok env CQuit _ _ (Q4 _)) in R by discriminate. cbn [gret] in R. unfold glog in R.
    unfold restoreTerminal, ask_bool, gbind in R. rewrite (ask_ok env CEcho _ _ (Q3 _)) in R by discriminate. cbn in R. injection R as <-.
    unfold gdb_stdout, push. cbn [g_hist]. rewrite Hh4. cbn [rev]. rewrite rev_app_distr, rev_involutive. unfold h3, h2, h1, h0. cbn [rev List.app].
    repeat rewrite <- app_assoc. cbn [List.app flat_map]. rewrite ?flat_map_app. cbn [flat_map]. unfold call_text at 1 2 3 4. cbn [call_text]. rewrite S1, S2, S3. unfold whole. rewrite <- !app_assoc. cbn [List.app]. rewrite ?app_nil_r. repeat (rewrite <- app_assoc; cbn [List.app]). reflexivity.
  Qed.

  (** ** What the tests get *)
  Lemma starts_whole out : starts_with PROMPT (whole out) = true.
  Proof. apply starts_app. Qed.
  Lemma skip_whole out : skipn 6 (whole out) = out ++ PROMPT ++ newline :: written CQuit ++ T "Quit gdb." ++ [newline].
  Proof. reflexivity. Qed.
  Definition farewell : text := newline :: written CQuit ++ T "Quit gdb." ++ [newline].
  Lemma find_prompt out : ~ occurs PROMPT (written CQuit) -> rfind PROMPT (out ++ PROMPT ++ farewell) = Z.of_nat (List.length out).
  Proof. intros Hq. exact (rfind_last (T "gdb) ") "("%char farewell (prompt_tail _ Hq) out). Qed.
  Lemma no_traceback_prefix out : ~ occurs (T "Traceback") out -> contains (T "Traceback") (bytes_rstrip out) = false.
  Proof.
    intros Ht. apply not_contains. destruct (rstrip_prefix out) as (sp & E & _). intros (a & b & E'). apply Ht. exists a, (b ++ sp). rewrite E, E'. now rewrite <- !app_assoc.
  Qed.
  Lemma result_of out : ~ occurs PROMPT (written CQuit) -> out <> [] -> ~ occurs (T "Traceback") out -> run_command 0 (whole out) = Ok (bytes_rstrip out).
  Proof.
    intros Hq Hn Ht. unfold run_command. change (negb (0 =? 0)) with false. cbv iota. rewrite starts_whole, skip_whole. fold farewell. cbv zeta. rewrite (find_prompt out Hq).
    assert (Z.of_nat (List.length out) =? 0 = false) as -> by (apply Z.eqb_neq; destruct out; [congruence|cbn; lia]). cbn [negb]. rewrite slice_all.
    now rewrite (no_traceback_prefix out Ht).
  Qed.
  (** A traceback is found. *)
  Lemma traceback_of out : ~ occurs PROMPT (written CQuit) -> out <> [] -> occurs (T "Traceback") out -> run_command 0 (whole out) = Err EAssertionError.
  Proof.
    intros Hq Hn (a & b & E). unfold run_command. change (negb (0 =? 0)) with false. cbv iota. rewrite starts_whole, skip_whole. fold farewell. cbv zeta. rewrite (find_prompt out Hq).
    assert (Z.of_nat (List.length out) =? 0 = false) as -> by (apply Z.eqb_neq; destruct out; [congruence|cbn; lia]). cbn [negb]. rewrite slice_all.
    assert (contains (T "Traceback") (bytes_rstrip out) = true) as ->; [|reflexivity]. apply find_occurs. subst out.
    destruct (rstrip_keeps (a ++ T "Tracebac") "k"%char b eq_refl) as (b' & Eb). exists a, b'. rewrite <- app_assoc in Eb. cbn [List.app] in Eb. rewrite <- app_assoc in Eb. exact Eb.
  Qed.
  (** Nothing written: the prompt and the last message are not removed. *)
  Lemma result_empty : ~ occurs PROMPT (written CQuit) -> ~ occurs (T "Traceback") (written CQuit) -> run_command 0 (whole []) = Ok (PROMPT ++ newline :: written CQuit ++ T "Quit gdb.").
  Proof.
    intros Hq Ht. unfold run_command. change (negb (0 =? 0)) with false. cbv iota. rewrite starts_whole, skip_whole. fold farewell. cbv zeta. rewrite (find_prompt [] Hq). cbn [List.length Z.of_nat Z.eqb negb].
    assert (forall s, bytes_rstrip (s ++ T "." ++ [newline]) = s ++ T ".") as Hs by (intros s; unfold bytes_rstrip; rewrite rev_app_distr; cbn; now rewrite rev_involutive).
    assert ([] ++ PROMPT ++ farewell = (PROMPT ++ newline :: written CQuit ++ T "Quit gdb") ++ T "." ++ [newline]) as -> by (unfold farewell; cbn; rewrite <- app_assoc; reflexivity).
    rewrite Hs. assert ((PROMPT ++ newline :: written CQuit ++ T "Quit gdb") ++ T "." = PROMPT ++ newline :: written CQuit ++ T "Quit gdb.") as -> by (cbn; rewrite <- app_assoc; reflexivity).
    rewrite not_contains; [reflexivity|]. intros H. apply occurs_sep in H as [H|H]; [apply find_occurs in H; discriminate| |cbv; intuition discriminate].
    change (T "Quit gdb.") with ("Q"%char :: T "uit gdb.") in H. apply occurs_sep in H as [H|H]; [contradiction|apply find_occurs in H; discriminate|cbv; intuition discriminate].
  Qed.
End Run.
(** No prompt: the last character is lost. *)
Lemma slice_last s : slice_to (-1) s = removelast s.
Proof.
  unfold slice_to. change (-1 <? 0) with true. cbv iota. rewrite removelast_firstn_len. f_equal. lia.
Qed.
Lemma result_no_prompt s : ~ occurs PROMPT s -> ~ occurs (T "Traceback") s -> run_command 0 s = Ok (bytes_rstrip (removelast s)).
Proof.
  intros H Ht. unfold run_command. change (negb (0 =? 0)) with false. cbv iota. destruct (starts_with PROMPT s) eqn:E; [apply starts_inv in E as (r & ->); exfalso; apply H; now exists [], r|].
  cbv zeta. rewrite (rfind_none _ _ H). change (negb (-1 =? 0)) with true. cbv iota. rewrite slice_last. rewrite (no_traceback_prefix (removelast s)); [reflexivity|].
  intros (a & b & Ea). apply Ht. destruct s as [|c s]; [now exists a, b|]. pose proof (app_removelast_last c (l := c :: s) ltac:(discriminate)) as El. rewrite El, Ea. exists a, (b ++ [last (c :: s) c]). now rewrite <- !app_assoc.
Qed.
Lemma result_status n s : n <> 0 -> run_command n s = Err EAssertionError.
Proof. intros H. unfold run_command. apply Z.eqb_neq in H as ->. reflexivity. Qed.
