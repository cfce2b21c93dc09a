(** * OutProofs2: more options; the profiler. *)
From Coq Require Import ZArith List Ascii String Bool Lia.
From Verif Require Import PyBase PyFacts Platform TabModel ToolsModel LogModel DbgModel StraceModel CmdModel CmdSpec CmdProofs CmdProofs2 OutModel OutSpec OutProofs.
Import ListNotations.
Open Scope Z_scope.

Lemma one_of_cases s name : one_of s name = true -> In name (words s).
Proof. unfold one_of. intros H. apply existsb_exists in H as (x & Hx & E). apply text_eqb_eq in E. now subst. Qed.
(** A flag for the level is none of the other flags. *)
Lemma level_given items more s : Forall level_option more -> (forall name, In name (words "--quiet -q --verbose -v --debug") -> one_of s name = false) ->
  given s (items ++ more) = given s items.
Proof.
  intros H Hs. rewrite given_app. replace (given s more) with false; [now rewrite orb_false_r|]. symmetry. induction H as [|i more (name & -> & Hn) _ IH]; [reflexivity|].
  unfold given in *. cbn [existsb]. rewrite (Hs name) by now apply one_of_cases. exact IH.
Qed.
Lemma level_int items more s d : Forall level_option more -> last_int s (items ++ more) d = last_int s items d.
Proof. intros H. rewrite last_int_app. generalize (last_int s items d). induction H as [|i more (name & -> & _) _ IH]; intros o; [reflexivity|]. cbn [last_int]. apply IH. Qed.
Lemma level_str items more s d : Forall level_option more -> last_str s (items ++ more) d = last_str s items d.
Proof. intros H. rewrite last_str_app. generalize (last_str s items d). induction H as [|i more (name & -> & _) _ IH]; intros o; [reflexivity|]. cbn [last_str]. apply IH. Qed.
Ltac none_of := let n := fresh in let Hn := fresh in intros n Hn; vm_compute in Hn; repeat (destruct Hn as [<-|Hn]; [vm_compute; reflexivity|]); destruct Hn.
Lemma level_record items more regex program : Forall level_option more -> strace_record (items ++ more) regex program = strace_record items regex program.
Proof. intros H. unfold strace_record. rewrite !(level_int items more) by exact H. rewrite !(level_str items more) by exact H. rewrite !(level_given items more) by (exact H || none_of). reflexivity. Qed.
Lemma level_items items more : Forall strace_item items -> Forall level_option more -> Forall strace_item (items ++ more).
Proof.
  intros H Hm. apply Forall_app. split; [exact H|]. eapply Forall_impl; [|exact Hm]. intros i (name & -> & Hn). cbn [strace_item]. apply one_of_cases in Hn. 
  revert Hn. generalize name. vm_compute words. intros n Hn. repeat (destruct Hn as [<-|Hn]; [vm_compute; reflexivity|]). destruct Hn.
Qed.
(** A file of output *)
Lemma out_given items name path s : given s (items ++ [IStr name path]) = given s items.
Proof. rewrite given_app. apply orb_false_r. Qed.
Lemma out_int items name path s d : last_int s (items ++ [IStr name path]) d = last_int s items d.
Proof. now rewrite last_int_app. Qed.
Lemma out_str items name path s d : one_of s name = false -> last_str s (items ++ [IStr name path]) d = last_str s items d.
Proof. intros H. rewrite last_str_app. cbn [last_str]. now rewrite H. Qed.
Lemma out_names name : one_of "--output -o" name = true -> one_of "--ignore-regex" name = false /\ one_of "--syscalls -e" name = false /\ one_of strace_strs name = true.
Proof. intros H. apply one_of_cases in H. vm_compute in H. repeat (destruct H as [<-|H]; [repeat split; vm_compute; reflexivity|]). destruct H. Qed.

Section Program.
  Context (p : platform) (compile : text -> res (text -> bool)) (locate : text -> text) (traced : soptions -> list text -> tstate * out (option Z))
          (show : dexn -> list message) (open_w : text -> res unit) (profile : bool) (dump : res unit) (stats : res (list text)).
  Notation program_of := (strace_program p compile locate traced show open_w profile dump stats).
  Notation run_main := (run_main traced show profile dump stats).

  Lemma same_elsewhere items program files o only values name path : Forall strace_item items ->
    strace_parse p compile locate (flat_map render items ++ T "--" :: program) = Ok (Run (o, only, values)) ->
    last_str "--output -o" items None = None -> one_of "--output -o" name = true -> path <> [] -> open_w path = Ok tt ->
    let u := program_of (flat_map render items ++ T "--" :: program) files in
    let v := program_of (flat_map render (items ++ [IStr name path]) ++ T "--" :: program) files in
    content (u_files v) path = Some (u_stderr u) /\ same_but path files (u_files v) /\ u_files u = files /\ u_stderr v = [] /\
    u_started u = true /\ u_started v = true /\ u_status u = u_status v /\ u_printed u = u_printed v.
  Proof.
    intros H E Ho Hn Hp Hw. destruct (out_names _ Hn) as (N1 & N2 & N3). assert (Forall strace_item (items ++ [IStr name path])) as H' by (apply Forall_app; split; [exact H|repeat constructor; exact N3]).
    assert (exists values', strace_parse p compile locate (flat_map render (items ++ [IStr name path]) ++ T "--" :: program) = Ok (Run (o, only, values'))) as [values' E'].
    { eapply parse_same; [exact H|exact H'|..|exact E]; rewrite ?out_given, ?out_int, ?out_str by assumption; try reflexivity.
      intros regex pr. unfold strace_record. rewrite !out_given, !out_int, !out_str by assumption. reflexivity. }
    cbv zeta. rewrite (program_run _ _ _ _ _ _ _ _ _ _ _ _ _ _ _ H E), (program_run _ _ _ _ _ _ _ _ _ _ _ _ _ _ _ H' E').
    rewrite out_given, Ho. replace (last_str "--output -o" (items ++ [IStr name path]) None) with (Some path) by (rewrite last_str_app; cbn [last_str]; now rewrite Hn).
    unfold levels. rewrite !out_given. destruct (run_main _ o only) as [l r]. destruct path as [|c t]; [contradiction|]. rewrite Hw. cbv zeta.
    cbn [u_files u_stderr u_printed u_started u_status]. split; [rewrite content_dget; apply dget_dset_same, text_eqb_eq|].
    split. { intros x Hx. rewrite !content_dget. symmetry. apply dget_dset_other; [apply text_eqb_eq|exact Hx]. }
    repeat split.
  Qed.
  Lemma shown_errors items show' st : only_errors show' st -> trace_text (shown_with items show') st = trace_text (fun x => map snd (show' x)) st.
  Proof.
    intros H. unfold trace_text. f_equal. rewrite oldest_rev. assert (forall x, In (LError x) (rev (t_log st)) -> Forall (fun m => fst m = log_error) (show' x)) as Hx by (intros x Hx; apply H; now apply in_rev).
    induction (rev (t_log st)) as [|l ls IH]; [reflexivity|]. cbn [flat_map]. rewrite IH by (intros x Hl; apply Hx; now right). f_equal. destruct l; try reflexivity. cbn [line_texts]. unfold shown_with. f_equal.
    specialize (Hx x (or_introl eq_refl)). clear -Hx. induction Hx as [|[m t] ms Hm _ IH]; [reflexivity|]. cbn [fst] in Hm. subst m. cbn [filter]. rewrite loud_error. now rewrite IH.
  Qed.
  Lemma level_irrelevant items more program files o only values : Forall strace_item items -> Forall level_option more ->
    strace_parse p compile locate (flat_map render items ++ T "--" :: program) = Ok (Run (o, only, values)) ->
    given "--profiler" items = false -> only_errors show (fst (traced o only)) ->
    program_of (flat_map render (items ++ more) ++ T "--" :: program) files = program_of (flat_map render items ++ T "--" :: program) files.
  Proof.
    intros H Hm E Hp Hs. assert (Forall strace_item (items ++ more)) as H' by now apply level_items.
    assert (exists values', strace_parse p compile locate (flat_map render (items ++ more) ++ T "--" :: program) = Ok (Run (o, only, values'))) as [values' E'].
    { eapply parse_same; [exact H|exact H'|..|exact E].
      - symmetry. apply level_given; [exact Hm|none_of]. - symmetry. now apply level_int. - symmetry. now apply level_str. - intros. now apply level_record. }
    rewrite (program_run _ _ _ _ _ _ _ _ _ _ _ _ _ _ _ H E), (program_run _ _ _ _ _ _ _ _ _ _ _ _ _ _ _ H' E').
    rewrite (level_given items more "--profiler") by (exact Hm || none_of). rewrite level_str by exact Hm. rewrite Hp, plain_run, !emitted_trace, !(shown_errors _ _ _ Hs). reflexivity.
  Qed.

  (** ** The profiler *)
  Lemma rest_errors items l : map snd (filter (loud items) (map (fun x => (log_error, rstrip x)) l)) = map rstrip l.
  Proof. induction l as [|x l IH]; [reflexivity|]. cbn [map filter]. rewrite loud_error. cbn [map snd]. now rewrite IH. Qed.
  Lemma profiled items o only : let (st, r) := traced o only in let (before, after) := profiler_lines items r dump stats in
    emitted (setup_level (levels items)) (fst (run_main true o only)) = text_of_lines before ++ trace_text (shown_with items show) st ++ text_of_lines after.
  Proof.
    unfold OutModel.run_main, profiler_lines. destruct (traced o only) as [st r]. rewrite <- emitted_trace. set (body := flat_map _ _).
    assert (forall l l', emitted (setup_level (levels items)) (l ++ l') = emitted (setup_level (levels items)) l ++ emitted (setup_level (levels items)) l') as Ha.
    { intros l l'. unfold emitted. rewrite !concat_lines, !displayed_loud. rewrite filter_app, map_app, text_of_lines_app. reflexivity. }
    set (lv := setup_level (levels items)) in *.
    assert (emitted lv [(log_warning, T "Run profiler")] = text_of_lines (if loud items (log_warning, []) then [T "Run profiler"] else [])) as Hs.
    { unfold emitted, lv. rewrite concat_lines, displayed_loud. cbn [filter]. change (loud items (log_warning, T "Run profiler")) with (loud items (log_warning, [])). destruct (loud items _); reflexivity. }
    assert (forall t, emitted lv [(log_error, t)] = text_of_lines [t]) as He by (intros t; unfold emitted, lv; now rewrite concat_lines, displayed_loud).
    rewrite <- Hs. unfold runProfiler. assert (forall m l, emitted lv (m :: l) = emitted lv [m] ++ emitted lv l) as Hc by (intros m l; apply (Ha [m] l)).
    destruct r as [code|[e|x]]; cbn [as_res]; [destruct dump as [[]|e]; [destruct stats as [lines|e]|]|..]; destruct profile; cbn [app firstn skipn fst]; rewrite (Hc (log_warning, T "Run profiler")), Ha;
      try (rewrite He; reflexivity); try reflexivity;
      (apply f_equal2; [reflexivity|apply f_equal2; [reflexivity|]]; unfold emitted, lv; rewrite concat_lines, displayed_loud; cbn [filter]; rewrite !loud_error; cbn [map snd]; rewrite rest_errors; reflexivity).
  Qed.
  (** How it ends *)
  Lemma profiled_end o only : let r := snd (traced o only) in let r' := snd (run_main true o only) in
    match r, dump, stats with
    | Ret _, Ok _, Ok _ => r' = r
    | Raise _, _, _ => exit_status r' = (if profile then exit_status r else 1) /\ is_ret r' = false
    | _, Err e, _ => exists e', r' = Raise (XErr e') /\ (profile = true -> e' = e)
    | _, _, Err e => r' = Raise (XErr e)
    end.
  Proof.
    unfold OutModel.run_main. destruct (traced o only) as [st r]. cbn [snd]. unfold runProfiler.
    destruct r as [code|[e|x]]; cbn [as_res]; [destruct dump as [[]|e]; [destruct stats as [lines|e]|]|..]; destruct profile; cbn [snd as_out]; try reflexivity; try (split; reflexivity); eexists; split; try reflexivity; discriminate.
  Qed.
  Lemma profiler_run items program files o only values : Forall strace_item items ->
    strace_parse p compile locate (flat_map render items ++ T "--" :: program) = Ok (Run (o, only, values)) ->
    given "--profiler" items = true -> (forall name, open_w name = Ok tt) ->
    let (st, r) := traced o only in let (before, after) := profiler_lines items r dump stats in
    let u := program_of (flat_map render items ++ T "--" :: program) files in
    let t := text_of_lines before ++ trace_text (shown_with items show) st ++ text_of_lines after in
    u_started u = true /\
    match last_str "--output -o" items None with
    | Some (c :: name) => content (u_files u) (c :: name) = Some t /\ same_but (c :: name) files (u_files u) /\ u_stderr u = []
    | _ => u_files u = files /\ u_stderr u = t
    end /\
    match r, dump, stats with
    | Ret _, Ok _, Ok _ => u_status u = exit_status r
    | Raise _, _, _ => u_status u = (if profile then exit_status r else 1)
    | _, _, _ => profile = true -> u_status u = match match dump with Err e => e | Ok _ => match stats with Err e => e | Ok _ => EUndefined end end with ESystemExit code => code mod 256 | _ => 1 end
    end.
  Proof.
    intros H E Hp Hw. pose proof (profiled items o only) as Ht. pose proof (profiled_end o only) as He. cbv zeta in He.
    rewrite (program_run _ _ _ _ _ _ _ _ _ _ _ _ _ _ _ H E), Hp. destruct (run_main true o only) as [l r']. destruct (traced o only) as [st r]. cbn [fst snd] in He, Ht |- *.
    destruct (profiler_lines items r dump stats) as [before after]. rewrite Ht. cbv zeta. set (t := text_of_lines before ++ _).
    assert (forall u, u_status u = exit_status r' -> match r, dump, stats with
      | Ret _, Ok _, Ok _ => u_status u = exit_status r
      | Raise _, _, _ => u_status u = (if profile then exit_status r else 1)
      | _, _, _ => profile = true -> u_status u = match match dump with Err e => e | Ok _ => match stats with Err e => e | Ok _ => EUndefined end end with ESystemExit code => code mod 256 | _ => 1 end
      end) as Hs.
    { intros u ->. clear -He. destruct r as [code|x]; [|exact (proj1 He)]. destruct dump as [?|e]; [destruct stats as [lines|e]|].
      - now subst r'. - intros _. subst r'. reflexivity. - intros Hx. destruct He as (e' & -> & He). rewrite (He Hx). reflexivity. }
    destruct (last_str _ _ _) as [[|c name]|]; [| rewrite Hw |]; (split; [reflexivity|split; [|apply Hs; reflexivity]]); [split; reflexivity| |split; reflexivity].
    cbn [u_files u_stderr]. split; [rewrite content_dget; apply dget_dset_same, text_eqb_eq|]. split; [|reflexivity].
    intros x Hx. rewrite !content_dget. symmetry. apply dget_dset_other; [apply text_eqb_eq|exact Hx].
  Qed.
End Program.
