(** * LogProofs: lemmas about error reports and the profiler. *)
From Coq Require Import ZArith List Ascii String Bool Lia.
From Verif Require Import PyBase PyFacts ToolsModel RegexFacts LogModel LogSpec.
Import ListNotations.
Open Scope Z_scope.

Lemma rstrip_trimmed l : trimmed l (rstrip l).
Proof.
  assert (forall s, exists sp, s = sp ++ lstrip s /\ Forall (fun c => is_space c = true) sp /\ forall c t, lstrip s = c :: t -> is_space c = false) as H.
  { induction s as [|c s (sp & E & F & N)]; [exists []; split; [reflexivity|]; split; [constructor|discriminate]|]. cbn [lstrip]. destruct (is_space c) eqn:Ec.
    - exists (c :: sp). split; [cbn; now rewrite <- E|]. split; [now constructor|exact N].
    - exists []. split; [reflexivity|]. split; [constructor|]. intros c' t [= <- <-]. exact Ec. }
  destruct (H (rev l)) as (sp & E & F & N). exists (rev sp). unfold rstrip. split; [rewrite <- rev_app_distr, <- E; now rewrite rev_involutive|]. split.
  - apply Forall_forall. intros c Hc. apply in_rev in Hc. rewrite Forall_forall in F. now apply F.
  - intros t' c Ht. apply (N c (rev t')). rewrite <- (rev_involutive (lstrip (rev l))), Ht, rev_app_distr. reflexivity.
Qed.
Lemma text_of_lines lines : lines <> [] -> traceback_text lines = join [nl] lines ++ [nl].
Proof.
  unfold traceback_text. induction lines as [|l lines IH]; [congruence|]. intros _. destruct lines as [|l2 lines]; [cbn; now rewrite app_nil_r|].
  cbn [map List.concat join]. cbn [map List.concat] in IH. rewrite IH by discriminate. change (join [nl] (l :: l2 :: lines)) with (l ++ [nl] ++ join [nl] (l2 :: lines)). now rewrite <- !app_assoc.
Qed.
Lemma lines_last lines : traceback_lines lines -> exists s c, join [nl] lines = s ++ [c] /\ is_space c = false.
Proof.
  intros (_ & bef & line & c & -> & Hc). clear -Hc. induction bef as [|x bef (s & c' & E & H)]; [exists line, c; split; [reflexivity|exact Hc]|].
  exists (x ++ [nl] ++ s), c'. split; [|exact H]. destruct (bef ++ [line ++ [c]]) as [|y l] eqn:El; [now destruct bef|]. cbn [app]. rewrite El. change (x ++ [nl] ++ join [nl] (y :: l) = (x ++ [nl] ++ s) ++ [c']). rewrite E. now rewrite <- !app_assoc.
Qed.
Lemma backtrace_lines lines trace level : traceback_lines lines -> List.concat trace = traceback_text lines -> hd_error trace <> Some (T "None" ++ [nl]) -> hd_error trace <> None ->
  writeBacktrace (Ok trace) level = map (fun l => (getLogFunc level, rstrip l)) lines.
Proof.
  intros H E Hn H0. destruct trace as [|first rest]; [now elim H0|]. unfold writeBacktrace. destruct (text_eqb first (T "None" ++ ["010"%char])) eqn:Ef; [apply text_eqb_eq in Ef as ->; now elim Hn|]. rewrite E.
  assert (lines <> []) as Hne by (destruct H as (_ & b & l & c & -> & _); now destruct b).
  rewrite text_of_lines by exact Hne. destruct (lines_last lines H) as (s & c & Es & Hc). rewrite Es, <- app_assoc.
  rewrite rstrip_spaces; [|exact Hc|repeat constructor]. rewrite <- Es. unfold nl. rewrite split_join; [reflexivity|exact Hne|]. destruct H as (H & _). rewrite Forall_forall in H. exact H.
Qed.
Lemma backtrace_never_empty trace level : exists m l, writeBacktrace trace level = m :: l.
Proof.
  destruct trace as [[|first rest]|e]; cbn; eauto. destruct (text_eqb _ _); eauto. pose proof (split_char_nonempty "010"%char (rstrip (first ++ List.concat rest))) as H. destruct (split_char _ _); [congruence|]. cbn. eauto.
Qed.
Lemma error_raised error title level trace : ends_program (eo_exn error) = true -> writeError error title level trace = Err (eo_exn error).
Proof. unfold writeError. destruct (eo_exn error); cbn; congruence. Qed.
Lemma error_written error title level trace : ends_program (eo_exn error) = false ->
  writeError error title level trace = Ok ((getLogFunc level, title ++ T ": [" ++ eo_class error ++ T "] " ++ eo_msg error) :: writeBacktrace trace (Z.max 10 (Z.min 40 (level - 10)))).
Proof.
  intros H. unfold writeError. assert (changeLogLevel level (-1) = Z.max 10 (Z.min 40 (level - 10))) as <-.
  { unfold changeLogLevel, minmax, DEBUG, ERROR. destruct (Z.ltb_spec (level + -1 * 10) 10); [lia|]. destruct (Z.ltb_spec 40 (level + -1 * 10)); lia. }
  assert (title ++ T ": " ++ formatError error = title ++ T ": [" ++ eo_class error ++ T "] " ++ eo_msg error) as E by reflexivity. rewrite E. destruct (eo_exn error); try reflexivity; discriminate.
Qed.
Lemma displayed_all level l : Forall (fun m => level <= level_of (fst m)) l -> displayed level l = map snd l.
Proof. unfold displayed. intros H. induction H as [|m l H _ IH]; [reflexivity|]. cbn. apply Z.leb_le in H. rewrite H. cbn. now rewrite IH. Qed.
Lemma displayed_none level l : Forall (fun m => level_of (fst m) < level) l -> displayed level l = [].
Proof. unfold displayed. intros H. induction H as [|m l H _ IH]; [reflexivity|]. cbn. apply Z.leb_gt in H. now rewrite H. Qed.
Lemma backtrace_level trace level : Forall (fun m => fst m = getLogFunc level) (writeBacktrace trace level).
Proof.
  destruct trace as [[|first rest]|e]; cbn; try (repeat constructor; fail). destruct (text_eqb _ _); [repeat constructor|]. apply Forall_forall. intros m Hm. apply in_map_iff in Hm as (l & <- & _). reflexivity.
Qed.
(** What the user sees of an error: always its text; the backtrace unless --quiet *)
Lemma error_seen o error title trace l : writeError error title 40 trace = Ok l ->
  displayed (setup_level o) l = (title ++ T ": [" ++ eo_class error ++ T "] " ++ eo_msg error) :: (if lo_quiet o && negb (lo_verbose o) && negb (lo_debug o) then [] else map snd (writeBacktrace trace 30)).
Proof.
  intros E. destruct (ends_program (eo_exn error)) eqn:Ep; [rewrite error_raised in E by exact Ep; discriminate|]. rewrite error_written in E by exact Ep. injection E as <-.
  change (Z.max 10 (Z.min 40 (40 - 10))) with 30. change (getLogFunc 40) with log_error.
  pose proof (backtrace_level trace 30) as Hb. change (getLogFunc 30) with log_warning in Hb.
  assert (setup_level o <= 40) as H40 by (unfold setup_level, DEBUG, INFO, ERROR, WARNING; destruct (lo_debug o), (lo_verbose o), (lo_quiet o); lia).
  change (displayed (setup_level o) (?m :: ?l)) with (displayed (setup_level o) ([m] ++ l)). unfold displayed at 1. rewrite filter_app, map_app. fold (displayed (setup_level o) (writeBacktrace trace 30)).
  cbn [filter fst level_of]. assert (setup_level o <=? ERROR = true) as -> by (apply Z.leb_le; exact H40). cbn [map snd app]. f_equal.
  destruct (lo_quiet o && negb (lo_verbose o) && negb (lo_debug o)) eqn:Eq.
  - apply andb_true_iff in Eq as (Eq & Ed). apply andb_true_iff in Eq as (Eq & Ev). apply negb_true_iff in Ed, Ev. apply displayed_none. eapply Forall_impl; [|exact Hb]. intros m ->. unfold setup_level. rewrite Eq, Ed, Ev. cbn. unfold WARNING, ERROR. lia.
  - apply displayed_all. eapply Forall_impl; [|exact Hb]. intros m ->. unfold setup_level. destruct (lo_debug o), (lo_verbose o), (lo_quiet o); try discriminate; cbn; unfold DEBUG, INFO, WARNING; lia.
Qed.
Lemma level_order o : setup_level o = if lo_debug o then 10 else if lo_verbose o then 20 else if lo_quiet o then 40 else 30.
Proof. reflexivity. Qed.
(** ** The profiler *)
Lemma profiler_works A file (r : A) lines : exists log, runProfiler file (Ok r) (Ok tt) (Ok lines) = (log, false, Ok r) /\
  map snd log = [T "Run profiler"; T "Profiler: Process data..."; T "Profiler: Result:"] ++ map rstrip lines.
Proof. eexists. split; [reflexivity|]. cbn. now rewrite map_map. Qed.
Lemma profiler_removes A file (f : res A) dump stats log file' r : runProfiler file f dump stats = (log, file', r) -> file' = false.
Proof. unfold runProfiler. destruct f; [destruct dump; [destruct stats|]|]; destruct file; now intros [= <- <- <-]. Qed.
Lemma profiler_error A e dump stats : runProfiler false (@Err A e) dump stats = ([(log_warning, T "Run profiler")], false, Err (EOSError 2)).
Proof. reflexivity. Qed.
Lemma profiler_wrong : exists e log, runProfiler false (@Err Z e) (Ok tt) (Ok []) = (log, false, Err (EOSError 2)) /\ e <> EOSError 2.
Proof. exists (ESystemExit 1). eexists. split; [reflexivity|discriminate]. Qed.
Lemma profiler_foreign : exists log, runProfiler true (@Err Z EKeyboardInterrupt) (Ok tt) (Ok []) = (log, false, Err EKeyboardInterrupt).
Proof. eexists. reflexivity. Qed.

Lemma backtrace_unknown trace level :
  (exists e, trace = Err e) \/ trace = Ok [] \/ (exists rest, trace = Ok ((T "None" ++ [nl]) :: rest)) ->
  writeBacktrace trace level = [(getLogFunc level, T "Unable to get backtrace")].
Proof. intros [[e ->]|[->|[rest ->]]]; reflexivity. Qed.
Lemma profiler_failed A file (r : A) stats e : exists log,
  runProfiler file (Ok r) (Ok tt) (Err e) = (log, false, Err e) /\ map snd log = [T "Run profiler"; T "Profiler: Process data..."] /\
  runProfiler file (Ok r) (Err e) stats = (log, false, Err (if file then e else EOSError 2)).
Proof. eexists. split; [reflexivity|]. split; [reflexivity|]. destruct file; reflexivity. Qed.
