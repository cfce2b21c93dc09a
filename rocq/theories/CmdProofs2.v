(** * CmdProofs2: the options of strace.py and gdb.py. *)
From Coq Require Import ZArith List Ascii String Bool Lia Sorted Permutation.
From Verif Require Import PyBase PyFacts PyInt PyIntFacts RegexModel RegexFacts Platform ToolsModel TabModel LogModel DbgModel StraceModel CmdModel CmdSpec CmdProofs.
Import ListNotations.
Open Scope Z_scope.

Definition no_equal (name : text) : bool := forallb (fun c => negb (Ascii.eqb c "="%char)) name.
(** The option of a name given in full *)
Definition resolve (options : list ooption) (name : text) : option ooption :=
  match name with
  | a :: b :: r =>
      if Ascii.eqb a "-"%char then
        if Ascii.eqb b "-"%char then (match r with [] => None | _ => if no_equal name then long_option options name else None end)
        else match r with [] => find_option options name | _ => None end
      else None
  | _ => None
  end.
Lemma no_equal_In name : no_equal name = true -> ~ In "="%char name.
Proof. unfold no_equal. rewrite forallb_forall. intros H Hi. specialize (H _ Hi). now rewrite Ascii.eqb_refl in H. Qed.
Section Items.
  Context (options : list ooption).
  Lemma resolve_arg name o : resolve options name = Some o -> name <> T "--" /\ is_dash name = true /\
    forall values, (if starts_with (T "--") name then long_opt options name values else short_opts options (skipn 1 name) values) =
      if takes_value o then inl (values, Some o) else match process_flag o values with inl values => inl (values, None) | inr code => inr code end.
  Proof.
    unfold resolve. destruct name as [|a [|b r]]; try discriminate. destruct (Ascii.eqb_spec a "-"%char) as [->|]; [|discriminate]. destruct (Ascii.eqb_spec b "-"%char) as [->|Hb].
    - destruct r as [|c r]; [discriminate|]. destruct (no_equal _) eqn:E; [|discriminate]. intros Ho. split; [discriminate|]. split; [reflexivity|]. intros values.
      change (starts_with (T "--") ("-"%char :: "-"%char :: c :: r)) with true. cbn iota. unfold long_opt. rewrite split1_none by now apply no_equal_In. now rewrite Ho.
    - destruct r as [|c r]; [|discriminate]. intros Ho. split; [intros [= H]; contradiction|]. split; [reflexivity|]. intros values.
      replace (starts_with (T "--") ["-"%char; b]) with false by (cbn [T list_ascii_of_string starts_with]; rewrite Ascii.eqb_refl; destruct (Ascii.eqb_spec "-"%char b); [congruence|reflexivity]).
      cbn [skipn short_opts]. rewrite Ho. destruct (takes_value o); [reflexivity|]. destruct (process_flag o values); reflexivity.
  Qed.
  Definition item_name (i : item) : text := match i with IFlag n | IInt n _ | IStr n _ => n end.
  Definition item_value (i : item) : ovalue := match i with IFlag _ => OBool true | IInt _ n => OInt n | IStr _ t => OStr t end.
  Definition item_action (i : item) : oaction := match i with IFlag _ => OStoreTrue | IInt _ _ => OStoreInt | IStr _ _ => OStoreStr end.
  Definition dest (i : item) : text := match resolve options (item_name i) with Some o => op_dest o | None => [] end.
  Definition good (i : item) : Prop := exists o, resolve options (item_name i) = Some o /\ op_action o = item_action i.
  Definition after (items : list item) (values : ovalues) : ovalues := fold_left (fun v i => dset text_eqb (dest i) (item_value i) v) items values.
  Lemma parse_item i r values largs : good i -> parse_args options (render i ++ r) values largs = parse_args options r (dset text_eqb (dest i) (item_value i) values) largs.
  Proof.
    intros (o & Ho & Ha). unfold dest. rewrite Ho. destruct (resolve_arg _ _ Ho) as (Hn & Hd & Hp).
    destruct i as [name|name n|name t]; cbn [render app item_name item_value item_action] in *; rewrite parse_cons, Hd, Hp by exact Hn; unfold takes_value, process_flag, process_value; rewrite Ha; try reflexivity.
    all: rewrite ?parse_decimal, Ha; reflexivity.
  Qed.
  Lemma parse_items items : Forall good items -> forall r values largs, parse_args options (flat_map render items ++ r) values largs = parse_args options r (after items values) largs.
  Proof. induction 1 as [|i items Hi _ IH]; intros r values largs; [reflexivity|]. cbn [flat_map]. rewrite <- app_assoc, parse_item, IH by exact Hi. reflexivity. Qed.
  (** The last value *)
  Definition teqb_spec : forall a b, text_eqb a b = true <-> a = b := text_eqb_eq.
  Lemma get_after d : forall items values, dget text_eqb d (after items values) =
    fold_left (fun x i => if text_eqb d (dest i) then Some (item_value i) else x) items (dget text_eqb d values).
  Proof.
    induction items as [|i items IH]; intros values; [reflexivity|]. unfold after in *. cbn [fold_left]. rewrite IH. f_equal. destruct (text_eqb d (dest i)) eqn:E.
    - apply text_eqb_eq in E. subst d. apply dget_dset_same. exact text_eqb_eq.
    - apply dget_dset_other; [exact text_eqb_eq|]. intros ->. rewrite (proj2 (text_eqb_eq _ _) eq_refl) in E. discriminate.
  Qed.
  Lemma bool_after d names items values : (forall i, In i items -> text_eqb (T d) (dest i) = match i with IFlag n => one_of names n | _ => false end) ->
    opt_bool (after items values) d = given names items || opt_bool values d.
  Proof.
    unfold opt_bool. rewrite get_after. generalize (dget text_eqb (T d) values). induction items as [|i items IH]; intros x H; [reflexivity|]. cbn [fold_left given existsb].
    rewrite IH by (intros j Hj; apply H; now right). rewrite (H i (or_introl eq_refl)). unfold given. destruct i as [n|n z|n t]; cbn [item_value]; try reflexivity.
    destruct (one_of names n); cbn [orb]; [apply orb_true_r|reflexivity].
  Qed.
  Lemma int_after d names items values : (forall i, In i items -> text_eqb (T d) (dest i) = match i with IInt n _ => one_of names n | _ => false end) ->
    opt_int (after items values) d = last_int names items (opt_int values d).
  Proof.
    unfold opt_int. rewrite get_after. generalize (dget text_eqb (T d) values). induction items as [|i items IH]; intros x H; [reflexivity|]. cbn [fold_left].
    rewrite IH by (intros j Hj; apply H; now right). rewrite (H i (or_introl eq_refl)). destruct i as [n|n z|n t]; cbn [item_value last_int]; try reflexivity. destruct (one_of names n); reflexivity.
  Qed.
  Lemma str_after d names items values : (forall i, In i items -> text_eqb (T d) (dest i) = match i with IStr n _ => one_of names n | _ => false end) ->
    opt_str (after items values) d = last_str names items (opt_str values d).
  Proof.
    unfold opt_str. rewrite get_after. generalize (dget text_eqb (T d) values). induction items as [|i items IH]; intros x H; [reflexivity|]. cbn [fold_left].
    rewrite IH by (intros j Hj; apply H; now right). rewrite (H i (or_introl eq_refl)). destruct i as [n|n z|n t]; cbn [item_value last_str]; try reflexivity. destruct (one_of names n); reflexivity.
  Qed.
End Items.

(** Checks of the tables *)
Definition good_name (options : list ooption) (a : oaction) (name : text) : bool :=
  match resolve options name with
  | Some o => match op_action o, a with OStoreTrue, OStoreTrue | OStoreInt, OStoreInt | OStoreStr, OStoreStr => true | _, _ => false end
  | None => false
  end.
Lemma one_of_forall names (P : text -> bool) : forallb P (words names) = true -> forall n, one_of names n = true -> P n = true.
Proof. intros H n Hn. unfold one_of in Hn. apply existsb_exists in Hn as (m & Hm & E). apply text_eqb_eq in E. subst. rewrite forallb_forall in H. auto. Qed.
Lemma good_name_spec options i : good_name options (item_action i) (item_name i) = true -> good options i.
Proof. unfold good_name, good. destruct (resolve options (item_name i)) as [o|]; [|discriminate]. intros H. exists o. split; [reflexivity|]. destruct (op_action o), i; cbn in *; congruence. Qed.
Lemma strace_good i : strace_item i -> good strace_options i.
Proof.
  intros H. apply good_name_spec. destruct i as [n|n z|n t]; cbn [strace_item item_action item_name] in *; revert n H.
  - apply one_of_forall. vm_compute. reflexivity.
  - intros n. revert n. apply one_of_forall. vm_compute. reflexivity.
  - intros n. revert n. apply one_of_forall. vm_compute. reflexivity.
Qed.
Lemma gdb_good i : gdb_item i -> good gdb_options i.
Proof.
  intros H. apply good_name_spec. destruct i as [n|n z|n t]; cbn [gdb_item item_action item_name] in *; [| |contradiction]; revert n H; apply one_of_forall; vm_compute; reflexivity.
Qed.
Definition dest_name (options : list ooption) (name : text) : text := match resolve options name with Some o => op_dest o | None => [] end.
Lemma strace_dest d names :
  forallb (fun n => Bool.eqb (text_eqb (T d) (dest_name strace_options n)) (one_of names n)) (words strace_flags ++ words strace_ints ++ words strace_strs) = true ->
  forall i, strace_item i -> text_eqb (T d) (dest strace_options i) = one_of names (item_name i).
Proof.
  intros H i Hi. rewrite !forallb_app, !andb_true_iff in H. destruct H as (H1 & H2 & H3). change (dest strace_options i) with (dest_name strace_options (item_name i)). apply Bool.eqb_prop.
  destruct i as [n|n z|n t]; cbn [strace_item item_name] in *; revert n Hi; apply one_of_forall; assumption.
Qed.

Lemma gdb_dest d names :
  forallb (fun n => Bool.eqb (text_eqb (T d) (dest_name gdb_options n)) (one_of names n)) (words gdb_flags ++ words gdb_ints) = true ->
  forall i, gdb_item i -> text_eqb (T d) (dest gdb_options i) = one_of names (item_name i).
Proof.
  intros H i Hi. rewrite !forallb_app, !andb_true_iff in H. destruct H as (H1 & H2). change (dest gdb_options i) with (dest_name gdb_options (item_name i)). apply Bool.eqb_prop.
  destruct i as [n|n z|n t]; cbn [gdb_item item_name] in *; [| |contradiction]; revert n Hi; apply one_of_forall; assumption.
Qed.
(** A name is of one kind *)
Definition disjoint (l names : string) : bool := forallb (fun n => negb (one_of names n)) (words l).
Lemma disjoint_spec l names n : disjoint l names = true -> one_of l n = true -> one_of names n = false.
Proof. intros H Hn. apply (one_of_forall l (fun n => negb (one_of names n)) H) in Hn. now apply negb_true_iff in Hn. Qed.
Section Strace.
  Context (items : list item) (Hitems : Forall strace_item items).
  Notation final := (after strace_options items (default_values strace_options)).
  Lemma strace_bool d names : forallb (fun n => Bool.eqb (text_eqb (T d) (dest_name strace_options n)) (one_of names n)) (words strace_flags ++ words strace_ints ++ words strace_strs) = true ->
    disjoint strace_ints names = true -> disjoint strace_strs names = true -> opt_bool (default_values strace_options) d = false -> opt_bool final d = given names items.
  Proof.
    intros H D1 D2 H0. rewrite (bool_after strace_options d names), H0, orb_false_r; [reflexivity|]. intros i Hi. rewrite Forall_forall in Hitems. specialize (Hitems i Hi). rewrite (strace_dest d names H i Hitems).
    destruct i as [n|n z|n t]; cbn [strace_item item_name] in *; [reflexivity| |]; (eapply disjoint_spec; [|exact Hitems]; assumption).
  Qed.
  Lemma strace_int d names x : forallb (fun n => Bool.eqb (text_eqb (T d) (dest_name strace_options n)) (one_of names n)) (words strace_flags ++ words strace_ints ++ words strace_strs) = true ->
    disjoint strace_flags names = true -> disjoint strace_strs names = true -> opt_int (default_values strace_options) d = x -> opt_int final d = last_int names items x.
  Proof.
    intros H D1 D2 H0. rewrite (int_after strace_options d names), H0; [reflexivity|]. intros i Hi. rewrite Forall_forall in Hitems. specialize (Hitems i Hi). rewrite (strace_dest d names H i Hitems).
    destruct i as [n|n z|n t]; cbn [strace_item item_name] in *; [|reflexivity|]; (eapply disjoint_spec; [|exact Hitems]; assumption).
  Qed.
  Lemma strace_str d names : forallb (fun n => Bool.eqb (text_eqb (T d) (dest_name strace_options n)) (one_of names n)) (words strace_flags ++ words strace_ints ++ words strace_strs) = true ->
    disjoint strace_flags names = true -> disjoint strace_ints names = true -> opt_str (default_values strace_options) d = None -> opt_str final d = last_str names items None.
  Proof.
    intros H D1 D2 H0. rewrite (str_after strace_options d names), H0; [reflexivity|]. intros i Hi. rewrite Forall_forall in Hitems. specialize (Hitems i Hi). rewrite (strace_dest d names H i Hitems).
    destruct i as [n|n z|n t]; cbn [strace_item item_name] in *; [| |reflexivity]; (eapply disjoint_spec; [|exact Hitems]; assumption).
  Qed.
  Lemma strace_values program : parse_args strace_options (flat_map render items ++ T "--" :: program) (default_values strace_options) [] = inl (final, program).
  Proof. rewrite parse_items by (eapply Forall_impl; [exact strace_good|exact Hitems]). reflexivity. Qed.
End Strace.
Ltac check := vm_compute; reflexivity.
Lemma strace_settings items program regex : Forall strace_item items ->
  exists values, parse_args strace_options (flat_map render items ++ T "--" :: program) (default_values strace_options) [] = inl (values, program) /\
    soptions_of values regex program = SOptions (last_int "--pid -p" items None) program (given "--enter" items) (given "--type" items) (given "--name" items)
      (or_zero (last_int "--string-length -s" items (Some 300))) (or_zero (last_int "--array-count" items (Some 20))) (given "--raw-socketcall" items) regex
      (given "--address" items) (last_str "--syscalls -e" items None) (given "--socket" items) (given "--filename" items) (given "--show-pid" items)
      (given "--show-ip -i" items) (given "--fork -f" items) (given "--trace-exec" items) (given "--trace-clone" items) /\
    opt_str values "ignore_regex" = last_str "--ignore-regex" items None /\ opt_str values "output" = last_str "--output -o" items None /\
    opt_bool values "list_syscalls" = given "--list-syscalls" items /\ opt_bool values "profiler" = given "--profiler" items /\ opt_bool values "no_stdout" = given "--no-stdout" items /\
    log_of values = LogOptions (given "--quiet -q" items) (given "--verbose -v" items) (given "--debug" items).
Proof.
  intros H. exists (after strace_options items (default_values strace_options)). split; [exact (strace_values items H program)|].
  unfold soptions_of, log_of.
  repeat match goal with
  | |- context [opt_bool (after strace_options items ?v) "enter"] => rewrite (strace_bool items H "enter" "--enter") by check
  | |- context [opt_bool (after strace_options items ?v) "type"] => rewrite (strace_bool items H "type" "--type") by check
  | |- context [opt_bool (after strace_options items ?v) "name"] => rewrite (strace_bool items H "name" "--name") by check
  | |- context [opt_bool (after strace_options items ?v) "raw_socketcall"] => rewrite (strace_bool items H "raw_socketcall" "--raw-socketcall") by check
  | |- context [opt_bool (after strace_options items ?v) "address"] => rewrite (strace_bool items H "address" "--address") by check
  | |- context [opt_bool (after strace_options items ?v) "socket"] => rewrite (strace_bool items H "socket" "--socket") by check
  | |- context [opt_bool (after strace_options items ?v) "filename"] => rewrite (strace_bool items H "filename" "--filename") by check
  | |- context [opt_bool (after strace_options items ?v) "show_pid"] => rewrite (strace_bool items H "show_pid" "--show-pid") by check
  | |- context [opt_bool (after strace_options items ?v) "show_ip"] => rewrite (strace_bool items H "show_ip" "--show-ip -i") by check
  | |- context [opt_bool (after strace_options items ?v) "fork"] => rewrite (strace_bool items H "fork" "--fork -f") by check
  | |- context [opt_bool (after strace_options items ?v) "trace_exec"] => rewrite (strace_bool items H "trace_exec" "--trace-exec") by check
  | |- context [opt_bool (after strace_options items ?v) "trace_clone"] => rewrite (strace_bool items H "trace_clone" "--trace-clone") by check
  | |- context [opt_bool (after strace_options items ?v) "list_syscalls"] => rewrite (strace_bool items H "list_syscalls" "--list-syscalls") by check
  | |- context [opt_bool (after strace_options items ?v) "profiler"] => rewrite (strace_bool items H "profiler" "--profiler") by check
  | |- context [opt_bool (after strace_options items ?v) "no_stdout"] => rewrite (strace_bool items H "no_stdout" "--no-stdout") by check
  | |- context [opt_bool (after strace_options items ?v) "quiet"] => rewrite (strace_bool items H "quiet" "--quiet -q") by check
  | |- context [opt_bool (after strace_options items ?v) "verbose"] => rewrite (strace_bool items H "verbose" "--verbose -v") by check
  | |- context [opt_bool (after strace_options items ?v) "debug"] => rewrite (strace_bool items H "debug" "--debug") by check
  end.
  rewrite (strace_int items H "pid" "--pid -p" None) by check. rewrite (strace_int items H "string_length" "--string-length -s" (Some 300)) by check.
  rewrite (strace_int items H "array_count" "--array-count" (Some 20)) by check. rewrite (strace_str items H "syscalls" "--syscalls -e") by check.
  rewrite (strace_str items H "ignore_regex" "--ignore-regex") by check. rewrite (strace_str items H "output" "--output -o") by check.
  repeat split.
Qed.
(** ** gdb.py *)
Section Gdb.
  Context (items : list item) (Hitems : Forall gdb_item items).
  Notation final := (after gdb_options items (default_values gdb_options)).
  Lemma gdb_bool d names : forallb (fun n => Bool.eqb (text_eqb (T d) (dest_name gdb_options n)) (one_of names n)) (words gdb_flags ++ words gdb_ints) = true ->
    disjoint gdb_ints names = true -> opt_bool (default_values gdb_options) d = false -> opt_bool final d = given names items.
  Proof.
    intros H D1 H0. rewrite (bool_after gdb_options d names), H0, orb_false_r; [reflexivity|]. intros i Hi. rewrite Forall_forall in Hitems. specialize (Hitems i Hi). rewrite (gdb_dest d names H i Hitems).
    destruct i as [n|n z|n t]; cbn [gdb_item item_name] in *; [reflexivity| |contradiction]. eapply disjoint_spec; [|exact Hitems]; assumption.
  Qed.
  Lemma gdb_int d names x : forallb (fun n => Bool.eqb (text_eqb (T d) (dest_name gdb_options n)) (one_of names n)) (words gdb_flags ++ words gdb_ints) = true ->
    disjoint gdb_flags names = true -> opt_int (default_values gdb_options) d = x -> opt_int final d = last_int names items x.
  Proof.
    intros H D1 H0. rewrite (int_after gdb_options d names), H0; [reflexivity|]. intros i Hi. rewrite Forall_forall in Hitems. specialize (Hitems i Hi). rewrite (gdb_dest d names H i Hitems).
    destruct i as [n|n z|n t]; cbn [gdb_item item_name] in *; [|reflexivity|contradiction]. eapply disjoint_spec; [|exact Hitems]; assumption.
  Qed.
  Lemma gdb_values program : parse_args gdb_options (flat_map render items ++ T "--" :: program) (default_values gdb_options) [] = inl (final, program).
  Proof. rewrite parse_items by exact (Forall_impl _ gdb_good Hitems). reflexivity. Qed.
End Gdb.
Lemma gdb_settings locate items x l : Forall gdb_item items ->
  exists values, gdb_parse locate (flat_map render items ++ T "--" :: x :: l) =
    Run (GOptions (last_int "--pid -p" items None) (locate x :: l) (given "--fork -f" items) (given "--trace-exec" items) (given "--trace-clone" items) (given "--no-stdout" items), values) /\
    log_of values = LogOptions (given "--quiet -q" items) (given "--verbose -v" items) (given "--debug" items).
Proof.
  intros H. exists (after gdb_options items (default_values gdb_options)). unfold gdb_parse. rewrite (gdb_values items H). unfold log_of.
  rewrite (gdb_int items H "pid" "--pid -p" None) by check. rewrite (gdb_bool items H "fork" "--fork -f") by check. rewrite (gdb_bool items H "trace_exec" "--trace-exec") by check.
  rewrite (gdb_bool items H "trace_clone" "--trace-clone") by check. rewrite (gdb_bool items H "no_stdout" "--no-stdout") by check.
  rewrite (gdb_bool items H "quiet" "--quiet -q") by check. rewrite (gdb_bool items H "verbose" "--verbose -v") by check. rewrite (gdb_bool items H "debug" "--debug") by check.
  destruct (last_int _ _ _); split; reflexivity.
Qed.
Lemma gdb_nothing locate items : Forall gdb_item items ->
  gdb_parse locate (flat_map render items) = match last_int "--pid -p" items None with
    | None => Exit 1 []
    | Some pid => Run (GOptions (Some pid) [] (given "--fork -f" items) (given "--trace-exec" items) (given "--trace-clone" items) (given "--no-stdout" items), after gdb_options items (default_values gdb_options))
    end.
Proof.
  intros H. unfold gdb_parse. rewrite <- (app_nil_r (flat_map render items)), parse_items by exact (Forall_impl _ gdb_good H). cbn [parse_args].
  rewrite (gdb_int items H "pid" "--pid -p" None) by check. rewrite (gdb_bool items H "fork" "--fork -f") by check. rewrite (gdb_bool items H "trace_exec" "--trace-exec") by check.
  rewrite (gdb_bool items H "trace_clone" "--trace-clone") by check. rewrite (gdb_bool items H "no_stdout" "--no-stdout") by check. destruct (last_int _ _ _); reflexivity.
Qed.

(** ** strace.py *)
Definition strace_record (items : list item) (regex : option (text -> bool)) (program : list text) : soptions :=
  SOptions (last_int "--pid -p" items None) program (given "--enter" items) (given "--type" items) (given "--name" items)
      (or_zero (last_int "--string-length -s" items (Some 300))) (or_zero (last_int "--array-count" items (Some 20))) (given "--raw-socketcall" items) regex
      (given "--address" items) (last_str "--syscalls -e" items None) (given "--socket" items) (given "--filename" items) (given "--show-pid" items)
      (given "--show-ip -i" items) (given "--fork -f" items) (given "--trace-exec" items) (given "--trace-clone" items).
Lemma strace_parse_items p compile locate items program : Forall strace_item items ->
  strace_parse p compile locate (flat_map render items ++ T "--" :: program) =
  if given "--list-syscalls" items then (do names <- SYSCALL_NAMES p; Ok (Exit 0 (list_lines names)))
  else if match last_int "--pid -p" items None, program with None, [] => true | _, _ => false end then Ok (Exit 1 [])
  else
    do only <- parse_filter p (strace_record items None program);
    match only with
    | inr lines => Ok (Exit 1 lines)
    | inl only =>
        let values := after strace_options items (default_values strace_options) in
        match last_str "--ignore-regex" items None with
        | Some (c :: t) => match compile (c :: t) with
                           | Ok regex => Ok (Run (strace_record items (Some regex) (processOptions locate program), only, values))
                           | Err _ => Ok (Exit 1 [])
                           end
        | _ => Ok (Run (strace_record items None (processOptions locate program), only, values))
        end
    end.
Proof.
  intros H. unfold strace_parse. rewrite (strace_values items H program).
  assert (forall regex program, soptions_of (after strace_options items (default_values strace_options)) regex program = strace_record items regex program) as Hr.
  { intros regex pr. destruct (strace_settings items pr regex H) as (values & Hp & Hs & _). rewrite (strace_values items H pr) in Hp. injection Hp as <-. exact Hs. }
  rewrite (strace_bool items H "list_syscalls" "--list-syscalls") by check. rewrite (strace_int items H "pid" "--pid -p" None) by check. rewrite (strace_str items H "ignore_regex" "--ignore-regex") by check.
  destruct (given "--list-syscalls" items); [reflexivity|]. destruct (match last_int _ _ _ with Some _ => _ | None => _ end); [reflexivity|]. rewrite Hr.
  destruct (parse_filter p _) as [[only|lines]|e]; cbn [bind]; try reflexivity. destruct (last_str _ _ _) as [[|c t]|]; rewrite ?Hr; try reflexivity. destruct (compile (c :: t)); rewrite ?Hr; reflexivity.
Qed.
Lemma parse_filter_same p o o' : s_syscalls o = s_syscalls o' -> s_filename o = s_filename o' -> s_socket o = s_socket o' -> parse_filter p o = parse_filter p o'.
Proof. intros H1 H2 H3. unfold parse_filter, only_filter. now rewrite H1, H2, H3. Qed.

(** The list of the system calls *)
Definition before (x y : Z * text) : Prop := fst x <= fst y.
Lemma insert_sorted x l : StronglySorted before l -> StronglySorted before (insert_num x l).
Proof.
  induction 1 as [|y l Hl IH Hy]; [constructor; constructor|]. cbn [insert_num]. destruct (fst x <=? fst y) eqn:E; zb.
  - constructor; [now constructor|]. constructor; [exact E|]. eapply Forall_impl; [|exact Hy]. unfold before. intros; lia.
  - constructor; [exact IH|]. apply Forall_forall. intros z Hz. assert (forall l, In z (insert_num x l) -> z = x \/ In z l) as Hin.
    { induction l0 as [|w l0 IH0]; cbn [insert_num]; [intros [->|[]]; now left|]. destruct (fst x <=? fst w); cbn; intuition. }
    apply Hin in Hz as [->|Hz]; [unfold before; lia|]. rewrite Forall_forall in Hy. now apply Hy.
Qed.
Lemma insert_perm x l : Permutation (x :: l) (insert_num x l).
Proof. induction l as [|y l IH]; [reflexivity|]. cbn [insert_num]. destruct (fst x <=? fst y); [reflexivity|]. rewrite perm_swap. now constructor. Qed.
Lemma sorted_list l : StronglySorted before (fold_right insert_num [] l) /\ Permutation l (fold_right insert_num [] l).
Proof.
  induction l as [|x l [IH1 IH2]]; cbn [fold_right]; [split; [constructor|reflexivity]|]. split; [now apply insert_sorted|]. rewrite <- insert_perm. now constructor.
Qed.
Lemma list_lines_spec names : exists l, StronglySorted (fun x y => fst x <= fst y) l /\ Permutation names l /\ list_lines names = map (fun x => padl 3 " "%char (str_int (fst x)) ++ T ": " ++ snd x) l.
Proof. exists (fold_right insert_num [] names). destruct (sorted_list names). repeat split; assumption. Qed.

(** ** Wrong command lines *)
Lemma help_exit options a v l r : In options [strace_options; gdb_options] -> ~ In (T "--") a -> parse_args options a (default_values options) [] = inl (v, l) ->
  parse_args options (a ++ T "-h" :: r) (default_values options) [] = inr 0 /\ parse_args options (a ++ T "--help" :: r) (default_values options) [] = inr 0.
Proof.
  intros Ho Ha Hp. rewrite !(parse_concat _ _ _ _ _ _ _ Ha Hp). rewrite !parse_cons by discriminate. destruct Ho as [<-|[<-|[]]]; split; reflexivity.
Qed.
Lemma tables_ok options : In options [strace_options; gdb_options] -> NoDup (long_names options) /\ (forall x, In x (long_names options) -> ~ In "="%char x).
Proof.
  intros H. assert (forallb no_equal (long_names options) = true /\ NoDup (long_names options)) as [H1 H2].
  { destruct H as [<-|[<-|[]]]; (split; [vm_compute; reflexivity|]); vm_compute long_names; repeat (constructor; [intros Hi; cbn in Hi; repeat (destruct Hi as [Hi|Hi]; [discriminate Hi|]); exact Hi|]); constructor. }
  split; [exact H2|]. intros x Hx. rewrite forallb_forall in H1. now apply no_equal_In, H1.
Qed.
Lemma abbreviation options s w v r values largs : In options [strace_options; gdb_options] -> In w (long_names options) ->
  starts_with (T "--") s = true -> s <> T "--" -> starts_with s w = true ->
  s = w \/ (forall x, In x (long_names options) -> starts_with s x = true -> x = w) ->
  parse_args options (s :: r) values largs = parse_args options (w :: r) values largs /\
  parse_args options ((s ++ T "=" ++ v) :: r) values largs = parse_args options ((w ++ T "=" ++ v) :: r) values largs.
Proof. intros Ho. destruct (tables_ok options Ho) as [H1 H2]. now apply abbrev_parse. Qed.
Lemma ambiguous options s x y r values largs : In options [strace_options; gdb_options] -> In x (long_names options) -> In y (long_names options) -> x <> y ->
  starts_with (T "--") s = true -> s <> T "--" -> starts_with s x = true -> starts_with s y = true -> ~ In s (long_names options) ->
  parse_args options (s :: r) values largs = inr 2.
Proof.
  intros Ho Hx Hy Hne Hd Hs Sx Sy Hn. destruct (tables_ok options Ho) as [Hnd Heq].
  assert (~ In "="%char s) as Hes by (intros H; apply (Heq x Hx); apply starts_with_spec in Sx as (t & ->); apply in_or_app; now left).
  rewrite parse_cons by exact Hs. rewrite Hd. assert (is_dash s = true) as ->.
  { apply starts_with_spec in Hd as (t & ->). reflexivity. }
  unfold long_opt. rewrite split1_none by exact Hes. unfold long_option, match_abbrev. destruct (mem s (long_names options)) eqn:E; [apply mem_In in E; contradiction|].
  assert (In x (filter (starts_with s) (long_names options))) as Fx by (now apply filter_In). assert (In y (filter (starts_with s) (long_names options))) as Fy by (now apply filter_In).
  destruct (filter (starts_with s) (long_names options)) as [|a [|b m]]; [reflexivity| |reflexivity]. destruct Fx as [Fx|[]], Fy as [Fy|[]]. congruence.
Qed.
(** Options of the program without "--" *)
Lemma swallowed : exists o only values, strace_parse linux_x86_64 (fun _ => Err EUndefined) (fun t => T "/bin/" ++ t) (map T ["tail"; "-s"; "5"; "log"]%string) = Ok (Run (o, only, values)) /\
  s_program o = [T "/bin/tail"; T "log"] /\ s_string_length o = 5.
Proof. do 3 eexists. split; [vm_compute; reflexivity|]. split; reflexivity. Qed.
Lemma rejected : exists program, Forall (fun t => t <> []) program /\ hd [] program = T "ls" /\
  strace_parse linux_x86_64 (fun _ => Err EUndefined) (fun t => T "/bin/" ++ t) program = Ok (Exit 2 []) /\ gdb_parse (fun t => T "/bin/" ++ t) program = Exit 2 [].
Proof. exists (map T ["ls"; "-l"]%string). repeat split; try (vm_compute; reflexivity). repeat constructor; discriminate. Qed.
(** --pid 0 *)
Lemma pid_zero : exists o only values, strace_parse linux_x86_64 (fun _ => Err EUndefined) (fun t => t) (map T ["--pid"; "0"]%string) = Ok (Run (o, only, values)) /\
  s_pid o = Some 0 /\ s_program o = [].
Proof. do 3 eexists. split; [vm_compute; reflexivity|]. split; reflexivity. Qed.
Lemma pid_zero_fails K p o child fuel st : s_pid o = Some 0 -> s_program o = [] ->
  snd (createProcess K p o child fuel st) = Raise (XErr (match child with Ok _ => EIndexError | Err e => e end)).
Proof. intros H1 H2. unfold createProcess. rewrite H1. unfold createChild. rewrite H2. destruct child; reflexivity. Qed.
Lemma wrong_number v n : parse_num v = Err n -> forall options name o r values largs, resolve options name = Some o -> op_action o = OStoreInt ->
  parse_args options (name :: v :: r) values largs = inr 2.
Proof.
  intros Hv options name o r values largs Ho Ha. destruct (resolve_arg options name o Ho) as (Hn & Hd & Hp). rewrite parse_cons, Hd, Hp by exact Hn.
  unfold takes_value, process_value. rewrite Ha. rewrite Hv, Ha. reflexivity.
Qed.
Lemma strace_start p compile locate items x l : Forall strace_item items -> given "--list-syscalls" items = false -> last_str "--ignore-regex" items None = None ->
  let o program := strace_record items None program in
  exists values, strace_parse p compile locate (flat_map render items ++ T "--" :: x :: l) =
    do only <- parse_filter p (o (x :: l));
    Ok (match only with inr lines => Exit 1 lines | inl only => Run (o (locate x :: l), only, values) end).
Proof.
  intros H Hl Hr. cbv zeta. exists (after strace_options items (default_values strace_options)). rewrite (strace_parse_items p compile locate items (x :: l) H), Hl, Hr. cbv zeta.
  replace (match last_int "--pid -p" items None with Some _ => _ | None => _ end) with false by (destruct (last_int _ _ _); reflexivity).
  destruct (parse_filter p _) as [[only|lines]|e]; reflexivity.
Qed.
Lemma strace_regex p compile locate items program c t : Forall strace_item items -> given "--list-syscalls" items = false -> last_str "--ignore-regex" items None = Some (c :: t) ->
  match strace_parse p compile locate (flat_map render items ++ T "--" :: program) with
  | Ok (Run (o, _, _)) => exists regex, compile (c :: t) = Ok regex /\ s_regex o = Some regex
  | Ok (Exit code _) => code = 1
  | Err _ => True
  end.
Proof.
  intros H Hl Hr. rewrite (strace_parse_items p compile locate items program H), Hl, Hr. cbv zeta.
  destruct (match last_int _ _ _ with Some _ => _ | None => _ end); [reflexivity|]. destruct (parse_filter p _) as [[only|lines]|e]; cbn [bind]; try reflexivity.
  destruct (compile (c :: t)) as [regex|e]; [|reflexivity]. exists regex. split; reflexivity.
Qed.
Lemma strace_list p compile locate items program names : Forall strace_item items -> given "--list-syscalls" items = true -> SYSCALL_NAMES p = Ok names ->
  exists l, StronglySorted (fun x y => fst x <= fst y) l /\ Permutation names l /\
    strace_parse p compile locate (flat_map render items ++ T "--" :: program) = Ok (Exit 0 (map (fun x => padl 3 " "%char (str_int (fst x)) ++ T ": " ++ snd x) l)).
Proof.
  intros H Hl Hn. destruct (list_lines_spec names) as (l & H1 & H2 & H3). exists l. split; [exact H1|]. split; [exact H2|].
  rewrite (strace_parse_items p compile locate items program H), Hl, Hn. cbn [bind]. now rewrite H3.
Qed.
Lemma strace_nothing p compile locate items : Forall strace_item items -> given "--list-syscalls" items = false -> last_int "--pid -p" items None = None ->
  strace_parse p compile locate (flat_map render items ++ [T "--"]) = Ok (Exit 1 []).
Proof. intros H Hl Hp. now rewrite (strace_parse_items p compile locate items [] H), Hl, Hp. Qed.
Lemma gdb_no_program locate items : Forall gdb_item items ->
  match gdb_parse locate (flat_map render items) with
  | Exit code _ => code = 1 /\ last_int "--pid -p" items None = None
  | Run (o, _) => go_program o = [] /\ go_pid o = last_int "--pid -p" items None /\ go_pid o <> None
  end.
Proof.
  intros H. rewrite (gdb_nothing locate items H). destruct (last_int _ _ _); [|now split]. split; [reflexivity|]. split; [reflexivity|discriminate].
Qed.
