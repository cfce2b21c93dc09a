(** * OutProofs: proofs for OutProps. *)
From Coq Require Import ZArith List Ascii String Bool Lia.
From Verif Require Import PyBase PyFacts Platform TabModel ToolsModel LogModel DbgModel StraceModel CmdModel CmdSpec CmdProofs CmdProofs2 OutModel OutSpec.
Import ListNotations.
Open Scope Z_scope.

(** ** Texts *)
Lemma concat_lines l : List.concat (map (fun t => t ++ ["010"%char]) l) = text_of_lines l.
Proof. induction l as [|t l IH]; [reflexivity|]. cbn [map List.concat text_of_lines]. rewrite IH, <- app_assoc. reflexivity. Qed.
Lemma text_of_lines_app a b : text_of_lines (a ++ b) = text_of_lines a ++ text_of_lines b.
Proof. induction a as [|t a IH]; [reflexivity|]. cbn [app text_of_lines]. now rewrite IH, <- app_assoc. Qed.
Lemma oldest_rev {A} (l : list A) : oldest_first l = rev l.
Proof. induction l as [|x l IH]; [reflexivity|]. cbn [oldest_first rev]. now rewrite IH. Qed.
Definition levels (items : list item) : log_options := LogOptions (given "--quiet -q" items) (given "--verbose -v" items) (given "--debug" items).
Lemma loud_level items m : (setup_level (levels items) <=? level_of (fst m)) = loud items m.
Proof.
  destruct m as [m t]. unfold loud, setup_level, levels. cbn [lo_quiet lo_verbose lo_debug fst].
  destruct m, (given "--debug" items), (given "--verbose -v" items), (given "--quiet -q" items); reflexivity.
Qed.
Lemma displayed_loud items l : displayed (setup_level (levels items)) l = map snd (filter (loud items) l).
Proof. unfold displayed. f_equal. induction l as [|m l IH]; [reflexivity|]. cbn [filter]. rewrite loud_level, IH. reflexivity. Qed.
Lemma loud_error items t : loud items (log_error, t) = true. Proof. reflexivity. Qed.
Lemma displayed_lines items show l : map snd (filter (loud items) (flat_map (messages_of show) l)) = flat_map (line_texts (shown_with items show)) l.
Proof.
  induction l as [|x l IH]; [reflexivity|]. cbn [flat_map]. rewrite filter_app, map_app. apply f_equal2; [destruct x; reflexivity|exact IH].
Qed.
Lemma emitted_trace items show st : emitted (setup_level (levels items)) (flat_map (messages_of show) (rev (t_log st))) = trace_text (shown_with items show) st.
Proof. unfold emitted, trace_text. now rewrite concat_lines, displayed_loud, displayed_lines, oldest_rev. Qed.

(** ** Files *)
Lemma content_dget files name : content files name = dget text_eqb name files.
Proof.
  induction files as [|[n t] files IH]; [reflexivity|]. unfold content in *. cbn [find fst dget]. 
  replace (text_eqb n name) with (text_eqb name n) by (destruct (text_eqb name n) eqn:E, (text_eqb n name) eqn:E'; try reflexivity; [apply text_eqb_eq in E; subst; rewrite text_eqb_refl in E'|apply text_eqb_eq in E'; subst; rewrite text_eqb_refl in E]; discriminate).
  destruct (text_eqb name n); [reflexivity|exact IH].
Qed.

(** ** Command lines *)
Lemma given_app s a b : given s (a ++ b) = given s a || given s b.
Proof. apply existsb_app. Qed.
Lemma last_int_app s a b d : last_int s (a ++ b) d = last_int s b (last_int s a d).
Proof. revert d. induction a as [|[n|n z|n t] a IH]; intros d; [reflexivity|..]; cbn [app last_int]; apply IH. Qed.
Lemma last_str_app s a b d : last_str s (a ++ b) d = last_str s b (last_str s a d).
Proof. revert d. induction a as [|[n|n z|n t] a IH]; intros d; [reflexivity|..]; cbn [app last_str]; apply IH. Qed.

(** A command line that runs: its options *)
Lemma run_values p compile locate items program o only values : Forall strace_item items ->
  strace_parse p compile locate (flat_map render items ++ T "--" :: program) = Ok (Run (o, only, values)) ->
  opt_str values "output" = last_str "--output -o" items None /\ opt_bool values "profiler" = given "--profiler" items /\ log_of values = levels items.
Proof.
  intros H E. rewrite strace_parse_items in E by exact H. destruct (strace_settings items program None H) as (v & Hp & _ & _ & H1 & _ & H2 & _ & H3).
  rewrite (strace_values items H program) in Hp. injection Hp as <-.
  destruct (given "--list-syscalls" items). { destruct (SYSCALL_NAMES p); cbn [bind] in E; discriminate E. }
  destruct (match last_int _ _ _ with Some _ => _ | None => _ end); [discriminate E|].
  destruct (parse_filter p _) as [[only'|lines]|e]; cbn [bind] in E; try discriminate E. 
  cbv zeta in E. set (w := after strace_options items _) in *. clearbody w.
  assert (values = w) as -> by (destruct (last_str "--ignore-regex" items None) as [[|c t]|]; [|destruct (compile (c :: t)); [|discriminate E]|]; congruence).
  repeat split; assumption.
Qed.

Section Program.
  Context (p : platform) (compile : text -> res (text -> bool)) (locate : text -> text) (traced : soptions -> list text -> tstate * out (option Z))
          (show : dexn -> list message) (open_w : text -> res unit) (profile : bool) (dump : res unit) (stats : res (list text)).
  Notation program_of := (strace_program p compile locate traced show open_w profile dump stats).
  Notation run_main := (run_main traced show profile dump stats).

  Lemma program_run items program files o only values : Forall strace_item items ->
    strace_parse p compile locate (flat_map render items ++ T "--" :: program) = Ok (Run (o, only, values)) ->
    program_of (flat_map render items ++ T "--" :: program) files =
    let (l, r) := run_main (given "--profiler" items) o only in
    let text := emitted (setup_level (levels items)) l in
    match last_str "--output -o" items None with
    | Some (c :: t) => match open_w (c :: t) with
                       | Err _ => Outcome files [] [] false false 1
                       | Ok _ => Outcome (dset text_eqb (c :: t) text files) [] [] true (is_ret r) (exit_status r)
                       end
    | _ => Outcome files text [] true false (exit_status r)
    end.
  Proof.
    intros H E. unfold strace_program. rewrite E. destruct (run_values _ _ _ _ _ _ _ _ H E) as (-> & -> & ->).
    destruct (run_main _ o only) as [l r]. destruct (last_str _ _ _) as [[|c t]|]; [reflexivity| |reflexivity]. destruct (open_w (c :: t)); reflexivity.
  Qed.
  Lemma plain_run o only : run_main false o only = (flat_map (messages_of show) (rev (t_log (fst (traced o only)))), snd (traced o only)).
  Proof. unfold OutModel.run_main. destruct (traced o only). reflexivity. Qed.

  Lemma to_file items program files o only values path : Forall strace_item items ->
    strace_parse p compile locate (flat_map render items ++ T "--" :: program) = Ok (Run (o, only, values)) ->
    given "--profiler" items = false -> last_str "--output -o" items None = Some path -> path <> [] -> open_w path = Ok tt ->
    let (st, r) := traced o only in
    let u := program_of (flat_map render items ++ T "--" :: program) files in
    content (u_files u) path = Some (trace_text (shown_with items show) st) /\ same_but path files (u_files u) /\
    u_stderr u = [] /\ u_printed u = [] /\ u_started u = true /\ u_status u = exit_status r /\ (u_closed u = true <-> exists code, r = Ret code).
  Proof.
    intros H E Hp Ho Hn Hw. rewrite (program_run _ _ _ _ _ _ H E), Hp, plain_run, Ho, emitted_trace. destruct (traced o only) as [st r]. destruct path as [|c t]; [contradiction|]. rewrite Hw. cbv zeta.
    cbn [u_files u_stderr u_printed u_started u_status u_closed fst snd]. split; [rewrite content_dget; apply dget_dset_same, text_eqb_eq|].
    split. { intros x Hx. rewrite !content_dget. symmetry. apply dget_dset_other; [apply text_eqb_eq|exact Hx]. }
    repeat split. - destruct r; [eauto|discriminate]. - now intros [code ->].
  Qed.
  Lemma to_stderr items program files o only values : Forall strace_item items ->
    strace_parse p compile locate (flat_map render items ++ T "--" :: program) = Ok (Run (o, only, values)) ->
    given "--profiler" items = false -> (forall c t, last_str "--output -o" items None <> Some (c :: t)) ->
    let (st, r) := traced o only in
    let u := program_of (flat_map render items ++ T "--" :: program) files in
    u_stderr u = trace_text (shown_with items show) st /\ u_files u = files /\ u_printed u = [] /\ u_started u = true /\ u_status u = exit_status r.
  Proof.
    intros H E Hp Ho. rewrite (program_run _ _ _ _ _ _ H E), Hp, plain_run, emitted_trace. destruct (traced o only) as [st r].
    destruct (last_str _ _ _) as [[|c t]|]; [|now destruct (Ho c t)|]; repeat split.
  Qed.
  Lemma unwritable items program files o only values c t e : Forall strace_item items ->
    strace_parse p compile locate (flat_map render items ++ T "--" :: program) = Ok (Run (o, only, values)) ->
    last_str "--output -o" items None = Some (c :: t) -> open_w (c :: t) = Err e ->
    program_of (flat_map render items ++ T "--" :: program) files = Outcome files [] [] false false 1.
  Proof. intros H E Ho Hw. rewrite (program_run _ _ _ _ _ _ H E), Ho, Hw. destruct (run_main _ _ _). reflexivity. Qed.
  Lemma not_started args files : (forall o only values, strace_parse p compile locate args <> Ok (Run (o, only, values))) ->
    let u := program_of args files in
    u_files u = files /\ u_stderr u = [] /\ u_started u = false /\ u_closed u = false /\
    match strace_parse p compile locate args with Ok (Exit code lines) => u_printed u = lines /\ u_status u = code mod 256 | _ => u_printed u = [] /\ u_status u = 1 end.
  Proof.
    intros H. unfold strace_program. destruct (strace_parse p compile locate args) as [[[[o only] values]|code lines]|e]; [now destruct (H o only values)|..]; repeat split.
  Qed.

  (** ** More options *)
  Lemma parse_same a b program o only values : Forall strace_item a -> Forall strace_item b -> given "--list-syscalls" a = given "--list-syscalls" b -> last_int "--pid -p" a None = last_int "--pid -p" b None ->
    last_str "--ignore-regex" a None = last_str "--ignore-regex" b None -> (forall regex program, strace_record b regex program = strace_record a regex program) ->
    strace_parse p compile locate (flat_map render a ++ T "--" :: program) = Ok (Run (o, only, values)) ->
    exists values', strace_parse p compile locate (flat_map render b ++ T "--" :: program) = Ok (Run (o, only, values')).
  Proof.
    intros Ha Hb H1 H2 H3 Hr E. rewrite strace_parse_items in E |- * by assumption. rewrite <- H1, <- H2, <- H3.
    rewrite !Hr. destruct (given "--list-syscalls" a). { destruct (SYSCALL_NAMES p); cbn [bind] in E; discriminate E. }
    destruct (match last_int _ _ _ with Some _ => _ | None => _ end); [discriminate E|].
    destruct (parse_filter p _) as [[only'|lines]|e]; cbn [bind] in E |- *; try discriminate E. cbv zeta in E |- *.
    destruct (last_str "--ignore-regex" a None) as [[|c t]|]; [|destruct (compile (c :: t)); [|discriminate E]|]; rewrite ?Hr; injection E as <- <- <-; eexists; reflexivity.
  Qed.
End Program.
