From Coq Require Import ZArith List Ascii String Bool Lia.
From Verif Require Import PyBase PyFacts PyInt PyIntFacts Platform RegexModel RegexFacts MapModel MapProofs2 ProcModel ProcSpec.
Import ListNotations.
Open Scope Z_scope.

(** ** C20 *)
Lemma in_concat_numbers c numbers : In c (List.concat (map (fun n => T " " ++ str_int n) numbers)) -> c = " "%char \/ number_char c = true.
Proof.
  intros H. apply in_concat in H as (l & Hl & Hc). apply in_map_iff in Hl as (n & <- & _). destruct Hc as [<-|Hc]; [now left|].
  right. pose proof (str_int_chars n) as Hf. rewrite Forall_forall in Hf. now apply Hf.
Qed.
Lemma mapM_ints numbers : mapM (py_int 10) (map str_int numbers) = Ok numbers.
Proof. induction numbers as [|n l IH]; [reflexivity|]. cbn [map mapM]. rewrite py_int_plain. cbn [bind]. now rewrite IH. Qed.
Lemma word_int n : word (str_int n).
Proof. split; [apply str_int_nonempty|]. eapply Forall_impl; [|apply str_int_chars]. cbn. intros c Hc. now apply number_char_plain in Hc. Qed.
Lemma item_nth {A} (l : list A) i x : nth_error l i = Some x -> item l i = Ok x.
Proof. unfold item. now intros ->. Qed.
Lemma state_fields pid program state numbers : is_space state = false -> state <> ")"%char ->
  processState (stat_line pid program state numbers) =
    (do ppid <- item numbers 0; do pgrp <- item numbers 1; do session <- item numbers 2; do tty_nr <- item numbers 3; do tpgid <- item numbers 4;
     do utime <- item numbers 10; do stime <- item numbers 11; do starttime <- item numbers 18;
     Ok (PState pid program [state] ppid pgrp session tty_nr tpgid utime stime starttime)).
Proof.
  intros Hs Hp. unfold processState. set (tail := " "%char :: [state] ++ List.concat (map (fun n => T " " ++ str_int n) numbers) ++ [newline]).
  assert (stat_line pid program state numbers = ((str_int pid ++ [" "%char]) ++ "("%char :: program) ++ ")"%char :: tail) as ->.
  { unfold stat_line, tail. rewrite <- !app_assoc. cbn [T list_ascii_of_string app]. reflexivity. }
  rewrite (proj2 (rsplit1_spec ")"%char _ ((str_int pid ++ [" "%char]) ++ "("%char :: program) tail)).
  2:{ split; [reflexivity|]. unfold tail. cbn [app]. intros [H|[H|H]]; [discriminate H|now apply Hp|]. apply in_app_or in H as [H|[H|[]]]; [|discriminate H].
      apply in_concat_numbers in H as [H|H]; [discriminate H|discriminate H]. }
  rewrite (proj2 (split1_spec "("%char _ (str_int pid ++ [" "%char]) program)).
  2:{ split; [reflexivity|]. intros H. apply in_app_or in H as [H|[H|[]]]; [|discriminate H]. pose proof (str_int_chars pid) as Hf. rewrite Forall_forall in Hf. apply Hf in H. discriminate H. }
  replace (py_int 10 (str_int pid ++ [" "%char])) with (Ok pid) by (symmetry; apply (py_int_str pid [] [" "%char]); repeat constructor). cbn [bind].
  assert (split_ws tail = [state] :: map str_int numbers) as ->.
  { replace tail with (List.concat (map (fun w => " "%char :: w) ([state] :: map str_int numbers)) ++ [newline]).
    - apply split_words; [reflexivity| |repeat constructor]. constructor; [split; [discriminate|repeat constructor; exact Hs]|]. apply Forall_map, Forall_forall. intros n _. apply word_int.
    - unfold tail. cbn [map List.concat app]. rewrite map_map. rewrite <- ?app_assoc. reflexivity. }
  cbn [item nth_error bind skipn]. rewrite mapM_ints. cbn [bind].
  reflexivity.
Qed.
Lemma state_spec pid program state numbers : is_space state = false -> state <> ")"%char -> (19 <= List.length numbers)%nat ->
  processState (stat_line pid program state numbers) =
    Ok (PState pid program [state] (nth 0 numbers 0) (nth 1 numbers 0) (nth 2 numbers 0) (nth 3 numbers 0) (nth 4 numbers 0)
               (nth 10 numbers 0) (nth 11 numbers 0) (nth 18 numbers 0)).
Proof.
  intros Hs Hp Hl. rewrite state_fields by assumption.
  do 19 (destruct numbers as [|? numbers]; [cbn in Hl; lia|]). reflexivity.
Qed.
Lemma state_short pid program state numbers : is_space state = false -> state <> ")"%char -> (List.length numbers < 19)%nat ->
  processState (stat_line pid program state numbers) = Err EIndexError.
Proof.
  intros Hs Hp Hl. rewrite state_fields by assumption.
  do 19 (destruct numbers as [|? numbers]; [reflexivity|]). cbn in Hl. lia.
Qed.
Lemma read_text P pid key data : read_as P pid key data -> no_cr data -> readProcessProc P pid key = Ok data.
Proof. intros [H1 H2] H3. unfold readProcessProc, text_of. rewrite H1. cbn [as_proc_error bind]. rewrite H2. cbn [bind]. now rewrite universal_plain. Qed.
Lemma read_stat P pid program state numbers : is_space state = false -> state <> ")"%char -> (19 <= List.length numbers)%nat ->
  no_cr program -> read_as P pid (T "stat") (stat_line pid program state numbers) ->
  readProcessStat P pid =
    Ok (PState pid program [state] (nth 0 numbers 0) (nth 1 numbers 0) (nth 2 numbers 0) (nth 3 numbers 0) (nth 4 numbers 0)
               (nth 10 numbers 0) (nth 11 numbers 0) (nth 18 numbers 0)).
Proof.
  intros Hs Hp Hl Hc Hr. unfold readProcessStat. rewrite (read_text P pid _ _ Hr).
  2:{ unfold no_cr, stat_line. rewrite !in_app_iff. intros [H|[H|[H|[H|[H|[H|H]]]]]].
      - pose proof (str_int_chars pid) as Hf. rewrite Forall_forall in Hf. apply Hf in H. discriminate H.
      - destruct H as [H|[H|[]]]; discriminate H.
      - exact (Hc H).
      - destruct H as [H|[H|[]]]; discriminate H.
      - destruct H as [->|[]]. discriminate Hs.
      - apply in_concat_numbers in H as [H|H]; discriminate H.
      - destruct H as [H|[]]; discriminate H. }
  cbn [bind]. now apply state_spec.
Qed.
Lemma cr_program : exists P, pc_file P 7 (T "stat") = Ok (stat_line 7 (T "a" ++ [CR] ++ T "b") "S"%char (repeat 0 50)) /\ (forall d, pc_decode P d = Ok d) /\
  exists s, readProcessStat P 7 = Ok s /\ ps_program s = T "a" ++ [newline] ++ T "b".
Proof.
  exists (Proc (fun _ _ => Ok (stat_line 7 (T "a" ++ [CR] ++ T "b") "S"%char (repeat 0 50))) (fun _ _ => Err (EOSError 2)) [] (Err (EOSError 2)) (fun d => Ok d) 4096).
  split; [reflexivity|]. split; [reflexivity|]. eexists. split; vm_compute; reflexivity.
Qed.

(** ** C21 *)
Lemma no_cr_concat args : Forall no_cr args -> no_cr (nul_terminated args).
Proof.
  intros H Hi. unfold nul_terminated in Hi. apply in_concat in Hi as (l & Hl & Hc). apply in_map_iff in Hl as (a & <- & Ha). rewrite Forall_forall in H.
  apply in_app_or in Hc as [Hc|[Hc|[]]]; [exact (H a Ha Hc)|discriminate Hc].
Qed.
Lemma split_nul args : Forall (fun a => ~ In NUL a) args -> split_char NUL (nul_terminated args) = args ++ [[]].
Proof.
  induction 1 as [|a args Ha _ IH]; [reflexivity|]. unfold nul_terminated. cbn [map List.concat]. rewrite <- app_assoc. cbn [app].
  rewrite split_char_app by exact Ha. unfold nul_terminated in IH. now rewrite IH.
Qed.
Lemma list_round P pid key args : Forall (fun a => ~ In NUL a) args -> Forall no_cr args -> read_as P pid key (nul_terminated args) ->
  readProcessProcList P pid key = Ok args.
Proof.
  intros H1 H2 H3. unfold readProcessProcList. rewrite (read_text P pid key _ H3 (no_cr_concat args H2)). cbn [bind].
  destruct args as [|a args]; [reflexivity|]. destruct (nul_terminated (a :: args)) as [|x l] eqn:E.
  - exfalso. unfold nul_terminated in E. cbn [map List.concat] in E. destruct a; discriminate E.
  - rewrite <- E, split_nul by exact H1. rewrite rev_app_distr. cbn [rev app]. now rewrite rev_app_distr, rev_involutive.
Qed.
(** Without the last null byte *)
Lemma list_no_last P pid key args last : Forall (fun a => ~ In NUL a) args -> Forall no_cr args -> ~ In NUL last -> no_cr last -> last <> [] ->
  read_as P pid key (nul_terminated args ++ last) -> readProcessProcList P pid key = Ok (args ++ [last]).
Proof.
  intros H1 H2 H3 H4 H5 H6. unfold readProcessProcList. rewrite (read_text P pid key _ H6).
  2:{ intros Hi. apply in_app_or in Hi as [Hi|Hi]; [exact (no_cr_concat args H2 Hi)|exact (H4 Hi)]. }
  cbn [bind]. destruct (nul_terminated args ++ last) as [|x l] eqn:E; [apply app_eq_nil in E as [_ E]; contradiction|].
  rewrite <- E. assert (split_char NUL (nul_terminated args ++ last) = args ++ [last]) as ->.
  { clear H2 H6 E. induction H1 as [|a args Ha _ IH]; [now apply split_char_none|]. unfold nul_terminated. cbn [map List.concat]. rewrite <- !app_assoc. cbn [app].
    rewrite split_char_app by exact Ha. unfold nul_terminated in IH. now rewrite IH. }
  rewrite rev_app_distr. cbn [rev app]. destruct last; [contradiction|reflexivity].
Qed.
Lemma list_unreadable P pid key e : pc_file P pid key = Err (EOSError e) -> readProcessProcList P pid key = Err EProcError.
Proof. intros H. unfold readProcessProcList, readProcessProc. now rewrite H. Qed.
Lemma cmdline_list P pid esc args : args <> [] -> readProcessProcList P pid (T "cmdline") = Ok args -> readProcessCmdline P pid esc = Ok (Some args).
Proof. intros H1 H2. unfold readProcessCmdline. rewrite H2. destruct args; [contradiction|reflexivity]. Qed.
Lemma cmdline_fallback P pid esc : readProcessProcList P pid (T "cmdline") = Ok [] \/ readProcessProcList P pid (T "cmdline") = Err EProcError ->
  readProcessCmdline P pid esc =
    match readProcessStat P pid with
    | Ok s => Ok (Some [if esc then T "[" ++ ps_program s ++ T "]" else ps_program s])
    | Err EProcError => Ok None
    | Err e => Err e
    end.
Proof. intros H. unfold readProcessCmdline, cmdline_stat. destruct H as [-> | ->]; destruct (readProcessStat P pid) as [s|e]; try reflexivity; destruct e; reflexivity. Qed.
Lemma statm_spec P pid numbers : read_as P pid (T "statm") (statm_line numbers) -> readProcessStatm P pid = Ok (map (fun n => n * pc_page P) numbers).
Proof.
  intros H. assert (no_cr (statm_line numbers)) as Hc.
  { unfold no_cr, statm_line. rewrite in_app_iff. intros [Hi|[Hi|[]]]; [|discriminate Hi]. clear H. induction numbers as [|n l IH]; [destruct Hi|]. cbn [map join] in Hi.
    pose proof (str_int_chars n) as Hf. rewrite Forall_forall in Hf. destruct (map str_int l) eqn:E; [apply Hf in Hi; discriminate Hi|]. rewrite <- E in *.
    rewrite !in_app_iff in Hi. destruct Hi as [Hi|[Hi|Hi]]; [apply Hf in Hi; discriminate Hi|destruct Hi as [Hi|[]]; discriminate Hi|auto]. }
  unfold readProcessStatm. rewrite (read_text P pid _ _ H Hc). cbn [bind]. clear H Hc.
  assert (split_ws (statm_line numbers) = map str_int numbers) as ->.
  { assert (Forall word (map str_int numbers)) as Hw by (apply Forall_map, Forall_forall; intros n _; apply word_int). unfold statm_line. generalize dependent (map str_int numbers). intros ws Hw.
    destruct ws as [|w ws]; [reflexivity|]. assert (forall w ws, join (T " ") (w :: ws) = w ++ List.concat (map (fun w => " "%char :: w) ws)) as Hj.
    { intros w0 ws0. revert w0. induction ws0 as [|w1 ws0 IH]; intros w0; [cbn; now rewrite app_nil_r|]. change (join (T " ") (w0 :: w1 :: ws0)) with (w0 ++ T " " ++ join (T " ") (w1 :: ws0)). rewrite IH. reflexivity. }
    pose proof (split_words " "%char eq_refl (w :: ws) [newline] Hw ltac:(repeat constructor)) as Hs. rewrite Hj. cbn [map List.concat app] in Hs. unfold split_ws in *. cbn [split_ws_aux] in Hs. cbn [is_space] in Hs. exact Hs. }
  induction numbers as [|n l IH]; [reflexivity|]. cbn [map mapM]. rewrite py_int_plain. cbn [bind]. rewrite IH. reflexivity.
Qed.
Lemma processes_spec P pid : In pid (readProcesses P) <-> exists name, In name (pc_listdir P) /\ py_int 10 name = Ok pid.
Proof.
  unfold readProcesses. rewrite in_flat_map. split; intros (name & H1 & H2); exists name; (split; [exact H1|]); destruct (py_int 10 name) as [n|e]; cbn in *; try tauto.
  - destruct H2 as [->|[]]. reflexivity.
  - left. now injection H2.
  - discriminate H2.
Qed.
Lemma search_pids_spec P name pids found : search_pids P name pids = (found, Ok tt) ->
  found = filter (fun pid => match readProcessCmdline P pid true with Ok (Some (program :: _)) => text_eqb program name || ends_with (T "/" ++ name) program | _ => false end) pids.
Proof.
  revert found. induction pids as [|pid pids IH]; intros found; cbn [search_pids filter]; [now intros [= <-]|].
  destruct (readProcessCmdline P pid true) as [[[|program l]|]|e]; [apply IH| |apply IH|discriminate].
  destruct (search_pids P name pids) as [f r]. destruct (text_eqb program name || ends_with (T "/" ++ name) program); intros [= <- ->]; f_equal; now apply IH.
Qed.
Lemma search_names P name pid found : searchProcessesByName P name = (found, Ok tt) ->
  (In pid found <-> In pid (readProcesses P) /\ exists program l, readProcessCmdline P pid true = Ok (Some (program :: l)) /\ (program = name \/ exists dir, program = dir ++ T "/" ++ name)).
Proof.
  intros H. apply search_pids_spec in H. subst found. rewrite filter_In. apply and_iff_compat_l. split.
  - destruct (readProcessCmdline P pid true) as [[[|program l]|]|e]; try discriminate. rewrite orb_true_iff. intros [E|E]; exists program, l; (split; [reflexivity|]).
    + left. now apply text_eqb_eq.
    + right. now apply ends_with_spec in E.
  - intros (program & l & -> & [->|[dir ->]]); apply orb_true_iff; [left; apply text_eqb_refl|right]. apply ends_with_spec. now exists dir.
Qed.
Lemma search_first P name pid : searchProcessByName P name = Ok pid -> exists l r, searchProcessesByName P name = (pid :: l, r).
Proof. unfold searchProcessByName. destruct (searchProcessesByName P name) as [[|x l] r]; [destruct r; discriminate|]. intros [= ->]. eauto. Qed.
Lemma cr_argument : exists P args, read_as P 7 (T "cmdline") (nul_terminated args) /\ Forall (fun a => ~ In NUL a) args /\ readProcessProcList P 7 (T "cmdline") = Ok [T "a" ++ [newline] ++ T "b"] /\
  args = [T "a" ++ [CR] ++ T "b"].
Proof.
  exists (Proc (fun _ _ => Ok (nul_terminated [T "a" ++ [CR] ++ T "b"])) (fun _ _ => Err (EOSError 2)) [] (Err (EOSError 2)) (fun d => Ok d) 4096), [T "a" ++ [CR] ++ T "b"].
  split; [split; reflexivity|]. split; [|split; [vm_compute; reflexivity|reflexivity]]. repeat constructor. intros [H|[H|[H|[]]]]; discriminate H.
Qed.

(** ** C22 *)
Lemma truncate_spec max : forall env length kept removed, truncate_env max length env = (kept, removed) ->
  exists keep, List.length keep = List.length env /\ kept = selected keep env /\ removed = zlen (selected (map negb keep) env) /\
    (forall i v, nth_error env i = Some v -> nth_error keep i = Some (length + total (selected (firstn i keep) (firstn i env)) + zlen v <=? max)).
Proof.
  induction env as [|var env IH]; intros length kept removed; cbn [truncate_env].
  - intros [= <- <-]. exists []. split; [reflexivity|]. split; [reflexivity|]. split; [reflexivity|]. intros i v H. destruct i; discriminate H.
  - destruct (max <? length + zlen var) eqn:E; zb.
    + destruct (truncate_env max length env) as [k r] eqn:Et. intros [= <- <-]. destruct (IH _ _ _ Et) as (keep & H1 & H2 & H3 & H4).
      exists (false :: keep). split; [cbn; now rewrite H1|]. split; [exact H2|]. split; [cbn [map negb selected]; rewrite zlen_cons; lia|].
      intros [|i] v Hi; cbn [nth_error firstn selected total fold_right] in *.
      * injection Hi as <-. f_equal. symmetry. apply Z.leb_gt. lia.
      * exact (H4 i v Hi).
    + destruct (truncate_env max (length + zlen var) env) as [k r] eqn:Et. intros [= <- <-]. destruct (IH _ _ _ Et) as (keep & H1 & H2 & H3 & H4).
      exists (true :: keep). split; [cbn; now rewrite H1|]. split; [cbn [selected]; now rewrite H2|]. split; [exact H3|].
      intros [|i] v Hi; cbn [nth_error firstn selected total fold_right] in *.
      * injection Hi as <-. f_equal. symmetry. apply Z.leb_le. lia.
      * rewrite (H4 i v Hi). unfold total. f_equal. f_equal. lia.
Qed.
Lemma first_fit_unique max env k1 k2 : first_fit max env k1 -> first_fit max env k2 -> k1 = k2.
Proof.
  intros [L1 H1] [L2 H2]. assert (forall n, (n <= List.length env)%nat -> firstn n k1 = firstn n k2) as H.
  { induction n as [|n IH]; intros Hn; [reflexivity|]. specialize (IH ltac:(lia)). destruct (nth_error env n) as [v|] eqn:Ev; [|apply nth_error_None in Ev; lia].
    pose proof (H1 n v Ev) as E1. pose proof (H2 n v Ev) as E2. rewrite IH in E1. rewrite <- E2 in E1.
    assert (forall (l : list bool) b, nth_error l n = Some b -> firstn (S n) l = firstn n l ++ [b]) as Hf.
    { clear. induction n as [|n IH]; intros [|x l] b; try discriminate; [cbn; now intros [= ->]|]. intros H. change (firstn (S (S n)) (x :: l)) with (x :: firstn (S n) l). now rewrite (IH l b H). }
    rewrite (Hf k1 _ (eq_trans E1 E2)), (Hf k2 _ E2). now rewrite IH. }
  specialize (H (List.length env) (le_n _)). rewrite <- L1 in H at 1. rewrite <- L2 in H. now rewrite !firstn_all in H.
Qed.
Lemma truncate_first_fit max env kept removed : truncate_env max 0 env = (kept, removed) ->
  exists keep, first_fit max env keep /\ kept = selected keep env /\ removed = zlen (selected (map negb keep) env).
Proof. intros H. apply truncate_spec in H as (keep & H1 & H2 & H3 & H4). exists keep. split; [split; [exact H1|exact H4]|]. auto. Qed.
Lemma truncate_counts max : forall env length kept removed, truncate_env max length env = (kept, removed) -> zlen kept + removed = zlen env.
Proof.
  induction env as [|v env IH]; intros length kept removed; cbn [truncate_env]; [now intros [= <- <-]|]. destruct (max <? _).
  - destruct (truncate_env max length env) as [k r] eqn:E. intros [= <- <-]. apply IH in E. rewrite zlen_cons. lia.
  - destruct (truncate_env max _ env) as [k r] eqn:E. intros [= <- <-]. apply IH in E. rewrite !zlen_cons. lia.
Qed.
Lemma truncate_total max : forall env length kept removed, length <= max -> truncate_env max length env = (kept, removed) -> length + total kept <= max.
Proof.
  induction env as [|v env IH]; intros length kept removed Hl; cbn [truncate_env]; [intros [= <- <-]; cbn; lia|]. destruct (max <? _) eqn:E; zb.
  - destruct (truncate_env max length env) as [k r] eqn:Et. intros [= <- <-]. eapply IH; eauto.
  - destruct (truncate_env max _ env) as [k r] eqn:Et. intros [= <- <-]. apply IH in Et; [|lia]. unfold total in *. cbn [fold_right]. lia.
Qed.
Lemma mapM_items repr vars : mapM (env_item repr) (map (fun nv => fst nv ++ T "=" ++ snd nv) vars) =
  if forallb (fun nv => negb (char_in (fst nv) "="%char)) vars then Ok (map (fun nv => fst nv ++ T "=" ++ repr (snd nv)) vars) else mapM (env_item repr) (map (fun nv => fst nv ++ T "=" ++ snd nv) vars).
Proof.
  destruct (forallb _ vars) eqn:E; [|reflexivity]. induction vars as [|[n v] vars IH]; [reflexivity|]. cbn [forallb] in E. apply andb_true_iff in E as [E1 E2]. cbn [map mapM fst snd] in *.
  unfold env_item at 1. rewrite (proj2 (split1_spec "="%char _ n v)).
  2:{ split; [reflexivity|]. intros Hi. apply negb_true_iff in E1. assert (char_in n "="%char = true); [|congruence]. unfold char_in. apply existsb_exists. exists "="%char. split; [exact Hi|apply Ascii.eqb_refl]. }
  cbn [bind]. now rewrite (IH E2).
Qed.
Lemma env_text repr max vars kept : max <> 0 -> (forall nv, In nv vars -> ~ In "="%char (fst nv)) ->
  forall env, env = map (fun nv => fst nv ++ T "=" ++ snd nv) vars -> forall keep, first_fit max env keep -> kept = selected keep vars ->
  format_env repr (Some max) env = Ok (join (T ", ") (map (fun nv => fst nv ++ T "=" ++ repr (snd nv)) kept) ++
    (if (List.length kept =? List.length vars)%nat then [] else T ", ... (skip " ++ str_int (zlen vars - zlen kept) ++ T " vars)")).
Proof.
  intros Hm Hv env He keep Hk Hkept. unfold format_env. replace (max =? 0) with false by blia. destruct (truncate_env max 0 env) as [k r] eqn:Et.
  destruct (truncate_first_fit _ _ _ _ Et) as (keep' & Hf & Hks & Hr). rewrite (first_fit_unique _ _ _ _ Hf Hk) in *. clear keep' Hf. pose proof (truncate_counts _ _ _ _ _ Et) as Hc.
  assert (selected keep env = map (fun nv => fst nv ++ T "=" ++ snd nv) kept) as Hsel.
  { subst env kept. clear. revert keep. induction vars as [|nv vars IH]; intros [|[] keep]; cbn; try reflexivity; f_equal; auto. }
  rewrite Hsel in Hks. assert (incl kept vars) as Hin.
  { subst kept. clear. revert keep. induction vars as [|nv vars IH]; intros [|[] keep] x Hx; cbn in Hx; try contradiction; [destruct Hx as [->|Hx]; [now left|]|]; right; exact (IH keep x Hx). }
  rewrite Hks, mapM_items. replace (forallb _ kept) with true.
  2:{ symmetry. apply forallb_forall. intros nv Hnv. apply negb_true_iff. destruct (char_in (fst nv) "="%char) eqn:E; [|reflexivity]. exfalso. unfold char_in in E.
      apply existsb_exists in E as (c & Hc1 & Hc2). apply Ascii.eqb_eq in Hc2. subst c. exact (Hv nv (Hin nv Hnv) Hc1). }
  cbn [bind]. assert (zlen k = zlen kept) as Hlk by (rewrite Hks; unfold zlen; now rewrite map_length). assert (zlen env = zlen vars) as Hle by (rewrite He; unfold zlen; now rewrite map_length).
  assert (r = zlen vars - zlen kept) as -> by lia. unfold zlen in *.
  destruct (Nat.eqb_spec (List.length kept) (List.length vars)) as [E|E].
  - rewrite E, Z.sub_diag. cbn [Z.eqb]. now rewrite app_nil_r.
  - destruct (Z.of_nat (List.length vars) - Z.of_nat (List.length kept) =? 0) eqn:E2; zb; [exfalso; lia|reflexivity].
Qed.
Lemma no_equals repr : format_env repr (Some 100) [T "A=1"; T "oops"] = Err ETypeError.
Proof. reflexivity. Qed.
