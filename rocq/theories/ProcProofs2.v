From Coq Require Import ZArith List Ascii String Bool Lia.
From Verif Require Import PyBase PyFacts PyInt PyIntFacts Platform RegexModel RegexFacts MapModel MapProofs2 ProcModel ProcSpec ProcProofs.
Import ListNotations.
Open Scope Z_scope.

Lemma not_in_int c n : number_char c = false -> ~ In c (str_int n).
Proof. intros H Hi. pose proof (str_int_chars n) as Hf. rewrite Forall_forall in Hf. rewrite Hf in H by exact Hi. discriminate H. Qed.
Lemma ids_spec title r e s f : List.length title = 3%nat -> ids (ids_line title r e s f) = Ok [r; e; s; f].
Proof.
  intros Hl. unfold ids, ids_line. destruct title as [|a [|b [|c [|? ?]]]]; try discriminate Hl. cbn [T list_ascii_of_string app skipn].
  rewrite !split_char_app by (apply not_in_int; reflexivity). rewrite split_char_none.
  2:{ rewrite in_app_iff. intros [H|[H|[]]]; [revert H; now apply not_in_int|discriminate H]. }
  cbn [mapM]. rewrite !py_int_plain. cbn [bind]. replace (py_int 10 (str_int f ++ [newline])) with (Ok f) by (symmetry; apply (py_int_str f [] [newline]); repeat constructor). reflexivity.
Qed.
Lemma other_starts line : other_line line -> starts_with (T "Uid:") line = false /\ starts_with (T "Gid:") line = false.
Proof.
  intros (_ & _ & H1 & H2). split; apply not_true_iff_false; intros H; apply starts_with_spec in H as [r H]; [exact (H1 r H)|exact (H2 r H)].
Qed.
Lemma status_other lines rest u g : Forall other_line lines -> status_ids (lines ++ rest) u g = status_ids rest u g.
Proof. induction 1 as [|l lines Hl _ IH]; [reflexivity|]. cbn [app status_ids]. destruct (other_starts l Hl) as [-> ->]. cbn [bind]. exact IH. Qed.
Lemma status_file l1 l2 l3 ur ue us uf gr ge gs gf : Forall other_line l1 -> Forall other_line l2 -> Forall other_line l3 ->
  status_ids (l1 ++ ids_line (T "Uid") ur ue us uf :: l2 ++ ids_line (T "Gid") gr ge gs gf :: l3) None None = Ok (Some [ur; ue; us; uf], Some [gr; ge; gs; gf]).
Proof.
  intros H1 H2 H3. rewrite status_other by exact H1. cbn [status_ids]. rewrite ids_spec by reflexivity. 
  replace (starts_with (T "Uid:") (ids_line (T "Uid") ur ue us uf)) with true by reflexivity. replace (starts_with (T "Gid:") (ids_line (T "Uid") ur ue us uf)) with false by reflexivity.
  cbn [bind]. rewrite status_other by exact H2. cbn [status_ids]. rewrite ids_spec by reflexivity.
  replace (starts_with (T "Uid:") (ids_line (T "Gid") gr ge gs gf)) with false by reflexivity. replace (starts_with (T "Gid:") (ids_line (T "Gid") gr ge gs gf)) with true by reflexivity.
  cbn [bind]. rewrite <- (app_nil_r l3), status_other by exact H3. reflexivity.
Qed.
Definition whole (line : text) : Prop := exists l, line = l ++ [newline] /\ ~ In newline l.
Lemma whole_lines lines : Forall whole lines -> file_lines (List.concat lines) = lines.
Proof. induction 1 as [|x lines (l & -> & Hl) _ IH]; [reflexivity|]. cbn [List.concat]. rewrite <- app_assoc. cbn [app]. rewrite file_lines_cons by exact Hl. now rewrite IH. Qed.
Lemma ids_whole title r e s f : ~ In newline title -> whole (ids_line title r e s f).
Proof.
  intros H. exists (title ++ T ":" ++ [TAB] ++ str_int r ++ [TAB] ++ str_int e ++ [TAB] ++ str_int s ++ [TAB] ++ str_int f). split; [unfold ids_line; now rewrite <- !app_assoc|].
  rewrite !in_app_iff. intros Hi. repeat match type of Hi with _ \/ _ => destruct Hi as [Hi|Hi] end; try contradiction; try (revert Hi; now apply not_in_int); destruct Hi as [Hi|[]]; discriminate Hi.
Qed.
Lemma ids_no_cr title r e s f : ~ In CR title -> ~ In CR (ids_line title r e s f).
Proof.
  intros H. unfold ids_line. rewrite !in_app_iff. intros Hi. repeat match type of Hi with _ \/ _ => destruct Hi as [Hi|Hi] end; try contradiction; try (revert Hi; now apply not_in_int); destruct Hi as [Hi|[]]; discriminate Hi.
Qed.
Lemma owner_spec title r e s f : format_ids title (Some [r; e; s; f]) = Ok [owner_line title r e].
Proof. unfold format_ids, owner_line. cbn [item nth_error bind]. destruct (r =? e); rewrite ?app_nil_r, <- ?app_assoc; reflexivity. Qed.

Lemma info_spec P repr p pid max_length program state numbers args env cwd env_text l1 l2 l3 ur ue us uf gr ge gs gf :
  running_linux p = true ->
  is_space state = false -> state <> ")"%char -> (19 <= List.length numbers)%nat -> no_cr program ->
  read_as P pid (T "stat") (stat_line pid program state numbers) ->
  Forall (fun a => ~ In NUL a) args -> Forall no_cr args -> read_as P pid (T "cmdline") (nul_terminated args) ->
  Forall (fun a => ~ In NUL a) env -> Forall no_cr env -> read_as P pid (T "environ") (nul_terminated env) ->
  format_env repr max_length env = Ok env_text ->
  pc_link P pid (T "cwd") = Ok cwd ->
  Forall other_line l1 -> Forall other_line l2 -> Forall other_line l3 ->
  read_as P pid (T "status") (List.concat (l1 ++ ids_line (T "Uid") ur ue us uf :: l2 ++ ids_line (T "Gid") gr ge gs gf :: l3)) ->
  dumpProcessInfo P repr p pid max_length = Ok
    [T "Process ID: " ++ str_int pid ++ T " (parent: " ++ str_int (nth 0 numbers 0) ++ T ")";
     T "Process state: " ++ [state] ++ match dget text_eqb [state] STATE_NAMES with Some n => T " (" ++ n ++ T ")" | None => [] end;
     T "Process command line: " ++ repr_list repr args;
     T "Process environment: " ++ env_text;
     T "Process working directory: " ++ cwd;
     owner_line (T "User") ur ue; owner_line (T "Group") gr ge].
Proof.
  intros Hp Hs1 Hs2 Hn Hpr Hstat Ha1 Ha2 Ha3 He1 He2 He3 Henv Hl Ho1 Ho2 Ho3 Hst. unfold dumpProcessInfo. rewrite Hp. cbn [negb].
  rewrite (read_stat P pid program state numbers) by assumption. cbn [bind ps_ppid ps_state].
  rewrite (list_round P pid _ args) by assumption. cbn [bind unless_proc]. rewrite (list_round P pid _ env) by assumption. cbn [bind]. rewrite Henv. cbn [bind unless_proc].
  unfold readProcessLink. rewrite Hl. cbn [as_proc_error bind unless_proc].
  set (lines := l1 ++ ids_line (T "Uid") ur ue us uf :: l2 ++ ids_line (T "Gid") gr ge gs gf :: l3) in *.
  assert (Forall (fun l => whole l /\ ~ In CR l) lines) as Hw.
  { unfold lines. assert (forall l, Forall other_line l -> Forall (fun l => whole l /\ ~ In CR l) l) as Ho by (intros l; apply Forall_impl; intros x (H1 & H2 & _); auto).
    apply Forall_app; split; [auto|]. constructor; [split; [apply ids_whole|apply ids_no_cr]; cbn; intros Hi; repeat (destruct Hi as [Hi|Hi]; [discriminate Hi|]); exact Hi|].
    apply Forall_app; split; [auto|]. constructor; [split; [apply ids_whole|apply ids_no_cr]; cbn; intros Hi; repeat (destruct Hi as [Hi|Hi]; [discriminate Hi|]); exact Hi|]. auto. }
  destruct Hst as [Hf Hd]. rewrite Hf. cbn [as_proc_error bind]. unfold text_of. rewrite Hd. cbn [bind]. rewrite universal_plain.
  2:{ intros Hi. apply in_concat in Hi as (l & Hl1 & Hl2). rewrite Forall_forall in Hw. exact (proj2 (Hw l Hl1) Hl2). }
  rewrite whole_lines by (eapply Forall_impl; [|exact Hw]; cbn; tauto). unfold lines. rewrite status_file by assumption. cbn [bind fst snd]. rewrite !owner_spec. cbn [bind unless_proc app].
  destruct (dget text_eqb [state] STATE_NAMES); reflexivity.
Qed.
Lemma info_denied P repr p pid max_length e : running_linux p = true -> (forall key, pc_file P pid key = Err (EOSError e)) -> (forall key, pc_link P pid key = Err (EOSError e)) ->
  dumpProcessInfo P repr p pid max_length = Ok [T "Process ID: " ++ str_int pid].
Proof.
  intros Hp Hf Hl. unfold dumpProcessInfo, readProcessStat, readProcessProcList, readProcessProc, readProcessLink. rewrite Hp, !Hf, !Hl. cbn. now rewrite app_nil_r.
Qed.
Lemma info_other P repr p pid max_length : running_linux p = false -> dumpProcessInfo P repr p pid max_length = Ok [T "Process ID: " ++ str_int pid].
Proof. intros Hp. unfold dumpProcessInfo. now rewrite Hp. Qed.
Lemma boot_spec P l1 l2 n : Forall (fun l => whole l /\ ~ In CR l /\ forall r, l <> T "btime " ++ r) l1 -> Forall (fun l => whole l /\ ~ In CR l) l2 ->
  forall data, data = List.concat (l1 ++ (T "btime " ++ str_int n ++ [newline]) :: l2) -> pc_stat P = Ok data -> pc_decode P data = Ok data -> boot_seconds P = Ok n.
Proof.
  intros H1 H2 data Hd Hs Hdec. unfold boot_seconds, text_of. rewrite Hs. cbn [as_proc_error bind]. rewrite Hdec. cbn [bind]. 
  assert (Forall (fun l => whole l /\ ~ In CR l) (l1 ++ (T "btime " ++ str_int n ++ [newline]) :: l2)) as Hw.
  { apply Forall_app; split; [eapply Forall_impl; [|exact H1]; cbn; tauto|]. constructor; [|exact H2]. split.
    - exists (T "btime " ++ str_int n). split; [now rewrite <- app_assoc|]. rewrite in_app_iff. intros [Hi|Hi]; [cbn in Hi; repeat (destruct Hi as [Hi|Hi]; [discriminate Hi|]); exact Hi|]. revert Hi. now apply not_in_int.
    - rewrite !in_app_iff. intros [Hi|[Hi|[Hi|[]]]]; [cbn in Hi; repeat (destruct Hi as [Hi|Hi]; [discriminate Hi|]); exact Hi| |discriminate Hi]. revert Hi. now apply not_in_int. }
  subst data. rewrite universal_plain.
  2:{ intros Hi. apply in_concat in Hi as (l & Hl1 & Hl2). rewrite Forall_forall in Hw. exact (proj2 (Hw l Hl1) Hl2). }
  rewrite whole_lines by (eapply Forall_impl; [|exact Hw]; cbn; tauto).
  assert (btime_line (l1 ++ (T "btime " ++ str_int n ++ [newline]) :: l2) = Ok (Some n)) as ->.
  { clear Hw Hs Hdec. induction H1 as [|l l1 (_ & _ & Hl) _ IH].
    - change (btime_line ([] ++ (T "btime " ++ str_int n ++ [newline]) :: l2)) with (do seconds <- py_int 10 (str_int n ++ [newline]); Ok (Some seconds)).
      replace (py_int 10 (str_int n ++ [newline])) with (Ok n) by (symmetry; apply (py_int_str n [] [newline]); repeat constructor). reflexivity.
    - cbn [app btime_line]. replace (starts_with (T "btime ") l) with false; [exact IH|]. symmetry. apply not_true_iff_false. intros H. apply starts_with_spec in H as [r H]. exact (Hl r H). }
  reflexivity.
Qed.
(** ** State names, lists, short files *)
Lemma state_names state : dget text_eqb [state] STATE_NAMES = state_meaning state.
Proof.
  unfold STATE_NAMES, state_meaning. cbn [dget text_eqb T list_ascii_of_string]. rewrite !andb_true_r.
  repeat (match goal with |- context [if ?b then _ else _] => destruct b; [reflexivity|] end). reflexivity.
Qed.
Lemma list_text repr (a : text) l : repr_list repr [] = T "[]" /\ repr_list repr (a :: l) = T "[" ++ repr a ++ List.concat (map (fun x => T ", " ++ repr x) l) ++ T "]".
Proof.
  split; [reflexivity|]. unfold repr_list. f_equal. revert a. induction l as [|b l IH]; intros a.
  - cbn [map join List.concat app]. reflexivity.
  - change (join (T ", ") (map repr (a :: b :: l))) with (repr a ++ T ", " ++ join (T ", ") (map repr (b :: l))).
    cbn [map List.concat]. rewrite <- !app_assoc. f_equal. f_equal. exact (IH b).
Qed.
