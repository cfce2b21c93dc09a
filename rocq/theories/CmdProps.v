(** * CmdProps: property theorems about the command lines of strace.py and gdb.py (C102, C103, C110). *)
From Coq Require Import ZArith List Ascii String Bool Sorted Permutation.
From Verif Require Import PyBase Platform TabModel LogModel DbgModel StraceModel CmdModel CmdSpec CmdProofs CmdProofs2 CmdProofs3.
Import ListNotations.
Open Scope Z_scope.

(** ** C102 Options take effect in any order, the program follows "--" *)
(** strace.py: any sequence of options *)
Theorem c102_strace : forall items program regex, Forall strace_item items ->
  exists values, parse_args strace_options (flat_map render items ++ T "--" :: program) (default_values strace_options) [] = inl (values, program) /\
    soptions_of values regex program = SOptions (last_int "--pid -p" items None) program (given "--enter" items) (given "--type" items) (given "--name" items)
      (or_zero (last_int "--string-length -s" items (Some 300))) (or_zero (last_int "--array-count" items (Some 20))) (given "--raw-socketcall" items) regex
      (given "--address" items) (last_str "--syscalls -e" items None) (given "--socket" items) (given "--filename" items) (given "--show-pid" items)
      (given "--show-ip -i" items) (given "--fork -f" items) (given "--trace-exec" items) (given "--trace-clone" items) /\
    opt_str values "ignore_regex" = last_str "--ignore-regex" items None /\ opt_str values "output" = last_str "--output -o" items None /\
    opt_bool values "list_syscalls" = given "--list-syscalls" items /\ opt_bool values "profiler" = given "--profiler" items /\ opt_bool values "no_stdout" = given "--no-stdout" items /\
    log_of values = LogOptions (given "--quiet -q" items) (given "--verbose -v" items) (given "--debug" items).
Proof. intros items program regex H. exact (strace_settings items program regex H). Qed.
Print Assumptions c102_strace.
(** What strace.py does with them *)
Theorem c102_strace_start : forall p compile locate items x l, Forall strace_item items -> given "--list-syscalls" items = false -> last_str "--ignore-regex" items None = None ->
  let o program := SOptions (last_int "--pid -p" items None) program (given "--enter" items) (given "--type" items) (given "--name" items)
      (or_zero (last_int "--string-length -s" items (Some 300))) (or_zero (last_int "--array-count" items (Some 20))) (given "--raw-socketcall" items) None
      (given "--address" items) (last_str "--syscalls -e" items None) (given "--socket" items) (given "--filename" items) (given "--show-pid" items)
      (given "--show-ip -i" items) (given "--fork -f" items) (given "--trace-exec" items) (given "--trace-clone" items) in
  exists values, strace_parse p compile locate (flat_map render items ++ T "--" :: x :: l) =
    do only <- parse_filter p (o (x :: l));
    Ok (match only with inr lines => Exit 1 lines | inl only => Run (o (locate x :: l), only, values) end).
Proof. exact strace_start. Qed.
Print Assumptions c102_strace_start.
Theorem c102_strace_regex : forall p compile locate items program c t, Forall strace_item items -> given "--list-syscalls" items = false -> last_str "--ignore-regex" items None = Some (c :: t) ->
  match strace_parse p compile locate (flat_map render items ++ T "--" :: program) with
  | Ok (Run (o, _, _)) => exists regex, compile (c :: t) = Ok regex /\ s_regex o = Some regex
  | Ok (Exit code _) => code = 1
  | Err _ => True
  end.
Proof. exact strace_regex. Qed.
Print Assumptions c102_strace_regex.
Theorem c102_strace_list : forall p compile locate items program names, Forall strace_item items -> given "--list-syscalls" items = true -> SYSCALL_NAMES p = Ok names ->
  exists l, StronglySorted (fun x y => fst x <= fst y) l /\ Permutation names l /\
    strace_parse p compile locate (flat_map render items ++ T "--" :: program) = Ok (Exit 0 (map (fun x => padl 3 " "%char (str_int (fst x)) ++ T ": " ++ snd x) l)).
Proof. exact strace_list. Qed.
Print Assumptions c102_strace_list.
Theorem c102_strace_nothing : forall p compile locate items, Forall strace_item items -> given "--list-syscalls" items = false -> last_int "--pid -p" items None = None ->
  strace_parse p compile locate (flat_map render items ++ [T "--"]) = Ok (Exit 1 []).
Proof. exact strace_nothing. Qed.
Print Assumptions c102_strace_nothing.
(** gdb.py *)
Theorem c102_gdb : forall locate items x l, Forall gdb_item items ->
  exists values, gdb_parse locate (flat_map render items ++ T "--" :: x :: l) =
    Run (GOptions (last_int "--pid -p" items None) (locate x :: l) (given "--fork -f" items) (given "--trace-exec" items) (given "--trace-clone" items) (given "--no-stdout" items), values) /\
    log_of values = LogOptions (given "--quiet -q" items) (given "--verbose -v" items) (given "--debug" items).
Proof. exact gdb_settings. Qed.
Print Assumptions c102_gdb.
Theorem c102_gdb_no_program : forall locate items, Forall gdb_item items ->
  match gdb_parse locate (flat_map render items) with
  | Exit code _ => code = 1 /\ last_int "--pid -p" items None = None
  | Run (o, _) => go_program o = [] /\ go_pid o = last_int "--pid -p" items None /\ go_pid o <> None
  end.
Proof. exact gdb_no_program. Qed.
Print Assumptions c102_gdb_no_program.
(** Whatever the options are: the words after "--" are not looked at. *)
Theorem c102_separator : forall options a b values v l, ~ In (T "--") a -> parse_args options a values [] = inl (v, l) ->
  parse_args options (a ++ T "--" :: b) values [] = inl (v, l ++ b).
Proof. exact parse_separator. Qed.
Print Assumptions c102_separator.
Example c102_ex : let items := [IFlag (T "-i"); IInt (T "-s") 12; IFlag (T "--fork"); IStr (T "-e") (T "read, write"); IInt (T "--string-length") (-7)] in
  Forall strace_item items /\ given "--show-ip -i" items = true /\ given "--enter" items = false /\ last_int "--string-length -s" items (Some 300) = Some (-7) /\
  flat_map render items = map T ["-i"; "-s"; "12"; "--fork"; "-e"; "read, write"; "--string-length"; "-7"]%string /\
  match strace_parse linux_x86_64 (fun _ => Err EUndefined) (fun t => T "/bin/" ++ t) (flat_map render items ++ map T ["--"; "ls"; "-l"]%string) with
  | Ok (Run (o, only, _)) => s_program o = [T "/bin/ls"; T "-l"] /\ only = [T "read"; T "write"] /\ s_string_length o = -7 /\ s_fork o = true
  | _ => False
  end.
Proof. cbv zeta. split; [repeat constructor|]. repeat split. Qed.
Example c102_list_ex : match strace_parse linux_x86_64 (fun _ => Err EUndefined) (fun t => t) [T "--list-syscalls"] with
  | Ok (Exit 0 lines) => firstn 2 lines = [T "  0: read"; T "  1: write"] /\ nth_error lines 100 = Some (T "100: times")
  | _ => False
  end.
Proof. vm_compute. split; reflexivity. Qed.
Example c102_gdb_ex : gdb_parse (fun t => t) [T "-q"; T "--pid"; T "42"] =
  Run (GOptions (Some 42) [] false false false false, dset text_eqb (T "pid") (OInt 42) (dset text_eqb (T "quiet") (OBool true) (default_values gdb_options))).
Proof. vm_compute. reflexivity. Qed.

(** ** C103 Equivalent spellings of an option *)
Theorem c103_long_value : forall options name o v r values largs, name <> [] -> ~ In "="%char name -> long_option options (T "--" ++ name) = Some o -> takes_value o = true ->
  parse_args options ((T "--" ++ name ++ T "=" ++ v) :: r) values largs = parse_args options ((T "--" ++ name) :: v :: r) values largs.
Proof. exact long_value. Qed.
Print Assumptions c103_long_value.
Theorem c103_short_value : forall options c o v r values largs, c <> "-"%char -> v <> [] -> find_option options ["-"%char; c] = Some o -> takes_value o = true ->
  parse_args options (("-"%char :: c :: v) :: r) values largs = parse_args options (["-"%char; c] :: v :: r) values largs.
Proof. exact short_value. Qed.
Print Assumptions c103_short_value.
Theorem c103_bundle : forall options c o d s r values largs, c <> "-"%char -> d <> "-"%char -> find_option options ["-"%char; c] = Some o -> takes_value o = false ->
  parse_args options (("-"%char :: c :: d :: s) :: r) values largs = parse_args options (["-"%char; c] :: ("-"%char :: d :: s) :: r) values largs.
Proof. exact bundle. Qed.
Print Assumptions c103_bundle.
(** An unambiguous beginning of a long option *)
Theorem c103_abbreviation : forall options s w v r values largs, In options [strace_options; gdb_options] -> In w (long_names options) ->
  starts_with (T "--") s = true -> s <> T "--" -> starts_with s w = true ->
  s = w \/ (forall x, In x (long_names options) -> starts_with s x = true -> x = w) ->
  parse_args options (s :: r) values largs = parse_args options (w :: r) values largs /\
  parse_args options ((s ++ T "=" ++ v) :: r) values largs = parse_args options ((w ++ T "=" ++ v) :: r) values largs.
Proof. exact abbreviation. Qed.
Print Assumptions c103_abbreviation.
Theorem c103_ambiguous : forall options s x y r values largs, In options [strace_options; gdb_options] -> In x (long_names options) -> In y (long_names options) -> x <> y ->
  starts_with (T "--") s = true -> s <> T "--" -> starts_with s x = true -> starts_with s y = true -> ~ In s (long_names options) ->
  parse_args options (s :: r) values largs = inr 2.
Proof. exact ambiguous. Qed.
Print Assumptions c103_ambiguous.
Theorem c103_help : forall options a v l r, In options [strace_options; gdb_options] -> ~ In (T "--") a -> parse_args options a (default_values options) [] = inl (v, l) ->
  parse_args options (a ++ T "-h" :: r) (default_values options) [] = inr 0 /\ parse_args options (a ++ T "--help" :: r) (default_values options) [] = inr 0.
Proof. exact help_exit. Qed.
Print Assumptions c103_help.
(** Numbers: decimal, hexadecimal; a leading zero means octal *)
Theorem c103_decimal : forall n, parse_num (str_int n) = Ok n.
Proof. exact parse_decimal. Qed.
Print Assumptions c103_decimal.
Theorem c103_hexadecimal : forall n, 0 <= n -> parse_num (T "0x" ++ digits 16 n) = Ok n.
Proof. exact parse_hex. Qed.
Print Assumptions c103_hexadecimal.
Theorem c103_octal : forall n, 0 <= n -> parse_num (T "0" ++ digits 8 n) = Ok n.
Proof. exact parse_octal. Qed.
Print Assumptions c103_octal.
Theorem c103_binary : forall n, 0 <= n -> parse_num (T "0b" ++ digits 2 n) = Ok n.
Proof. exact parse_bin. Qed.
Print Assumptions c103_binary.
Theorem c103_binary_empty : parse_num (T "0b") = Ok 0.
Proof. exact parse_bin_empty. Qed.
Print Assumptions c103_binary_empty.
(** The names of the usage are the names of the options, and no other name is accepted *)
Theorem c103_known : forall options names n, In (options, names) [(strace_options, strace_names); (gdb_options, gdb_names)] -> one_of names n = true -> exists o, find_option options n = Some o.
Proof. exact known_names. Qed.
Print Assumptions c103_known.
Theorem c103_unknown : forall options names s r values largs, In (options, names) [(strace_options, strace_names); (gdb_options, gdb_names)] ->
  starts_with (T "--") s = true -> s <> T "--" -> ~ In "="%char s -> (forall w, one_of names w = true -> starts_with s w = false) ->
  parse_args options (s :: r) values largs = inr 2.
Proof. exact unknown_long. Qed.
Print Assumptions c103_unknown.
Theorem c103_unknown_letter : forall options names c s r values largs, In (options, names) [(strace_options, strace_names); (gdb_options, gdb_names)] ->
  c <> "-"%char -> one_of names ["-"%char; c] = false -> parse_args options (("-"%char :: c :: s) :: r) values largs = inr 2.
Proof. exact unknown_short. Qed.
Print Assumptions c103_unknown_letter.
Example c103_unknown_ex : one_of strace_names (T "-x") = false /\ one_of gdb_names (T "-s") = false /\ one_of strace_names (T "--show-ip") = true /\ Forall (fun w => starts_with (T "--follow") w = false) (words strace_names).
Proof. repeat split; try (vm_compute; reflexivity). apply Forall_forall. intros w Hw. vm_compute in Hw. repeat (destruct Hw as [<-|Hw]; [reflexivity|]). destruct Hw. Qed.
Theorem c103_wrong_number : forall v n, parse_num v = Err n -> forall options name o r values largs, resolve options name = Some o -> op_action o = OStoreInt ->
  parse_args options (name :: v :: r) values largs = inr 2.
Proof. exact wrong_number. Qed.
Print Assumptions c103_wrong_number.
Example c103_ex : let parse l := parse_args strace_options (map T l) (default_values strace_options) [] in
  parse ["-fqs12"; "ls"]%string = parse ["--fork"; "--qui"; "--string-length=0xc"; "ls"]%string /\ parse ["--s=3"]%string = inr 2 /\ parse ["--str=014"]%string = parse ["-s"; "12"]%string /\
  parse ["-s"; "08"]%string = inr 2 /\ parse ["--array=0b101"]%string = parse ["--array-count"; "5"]%string.
Proof. vm_compute. repeat split. Qed.

(** ** C110 Lines without "--" *)
(** The words of a program that has no options are left alone. *)
Theorem c110_plain_partial : forall options l, Forall plain_arg l -> forall values largs, parse_args options l values largs = inl (values, largs ++ l).
Proof. exact parse_plain. Qed.
Print Assumptions c110_plain_partial.
Example c110_plain_partial_ex : Forall plain_arg (map T ["cat"; "-"; "a-b"]%string).
Proof. repeat (apply Forall_cons; [first [left; reflexivity | right; intros r; discriminate]|]). apply Forall_nil. Qed.
(** Without "--", the options of the program are taken by the tracer. *)
Theorem c110_swallowed_refuted : exists o only values, strace_parse linux_x86_64 (fun _ => Err EUndefined) (fun t => T "/bin/" ++ t) (map T ["tail"; "-s"; "5"; "log"]%string) = Ok (Run (o, only, values)) /\
  s_program o = [T "/bin/tail"; T "log"] /\ s_string_length o = 5.
Proof. exact swallowed. Qed.
Print Assumptions c110_swallowed_refuted.
Theorem c110_rejected_refuted : exists program, Forall (fun t => t <> []) program /\ hd [] program = T "ls" /\
  strace_parse linux_x86_64 (fun _ => Err EUndefined) (fun t => T "/bin/" ++ t) program = Ok (Exit 2 []) /\ gdb_parse (fun t => T "/bin/" ++ t) program = Exit 2 [].
Proof. exact rejected. Qed.
Print Assumptions c110_rejected_refuted.
(** --pid 0 is accepted, but it is not taken for a process. *)
Theorem c110_pid_zero_refuted : exists o only values, strace_parse linux_x86_64 (fun _ => Err EUndefined) (fun t => t) (map T ["--pid"; "0"]%string) = Ok (Run (o, only, values)) /\
  s_pid o = Some 0 /\ s_program o = [].
Proof. exact pid_zero. Qed.
Print Assumptions c110_pid_zero_refuted.
Theorem c110_pid_zero_fails : forall K p o child fuel st, s_pid o = Some 0 -> s_program o = [] ->
  snd (createProcess K p o child fuel st) = Raise (XErr (match child with Ok _ => EIndexError | Err e => e end)).
Proof. exact pid_zero_fails. Qed.
Print Assumptions c110_pid_zero_fails.
