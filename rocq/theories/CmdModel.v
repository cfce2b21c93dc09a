(** * CmdModel: the command lines of strace.py and gdb.py, and the part of the module optparse of Python they use.
    An exit is represented by its code; the usage and the help are not represented. *)
From Coq Require Import ZArith List Ascii String Bool.
From Verif Require Import PyBase PyInt Platform ToolsModel TabModel LogModel StraceModel.
Import ListNotations.
Open Scope Z_scope.

(** ** optparse (Python library) *)

(** The actions store_true, store (type int or str) and help *)
Inductive oaction : Type := OStoreTrue | OStoreInt | OStoreStr | OHelp.
Record ooption : Type := Opt { op_names : list text; op_dest : text; op_action : oaction }.
Inductive ovalue : Type := OBool (b : bool) | OInt (z : Z) | OStr (t : text) | ONone.
Definition ovalues : Type := list (text * ovalue).
(** A result, or the exit code *)
Definition orexit (A : Type) : Type := (A + Z)%type.
(** OptionParser.error() *)
Definition usage_error {A} : orexit A := inr 2.

Definition takes_value (o : ooption) : bool := match op_action o with OStoreInt | OStoreStr => true | _ => false end.
(** _parse_num: the radix depends on the prefix *)
Definition parse_num (v : text) : res Z :=
  let prefix := lower (firstn 2 v) in
  if text_eqb prefix (T "0x") then py_int 16 v
  else if text_eqb prefix (T "0b") then py_int 2 (match skipn 2 v with [] => T "0" | r => r end)
  else if starts_with (T "0") v then py_int 8 v
  else py_int 10 v.
(** Option.process() for an option without and with a value *)
Definition process_flag (o : ooption) (values : ovalues) : orexit ovalues :=
  match op_action o with
  | OStoreTrue => inl (dset text_eqb (op_dest o) (OBool true) values)
  | _ => inr 0
  end.
Definition process_value (o : ooption) (v : text) (values : ovalues) : orexit ovalues :=
  match op_action o with
  | OStoreInt => match parse_num v with
                 | Ok n => inl (dset text_eqb (op_dest o) (OInt n) values)
                 | Err _ => usage_error
                 end
  | _ => inl (dset text_eqb (op_dest o) (OStr v) values)
  end.

Section Optparse.
  Context (options : list ooption).
  (** The dictionaries _short_opt and _long_opt *)
  Definition find_option (name : text) : option ooption := find (fun o => mem name (op_names o)) options.
  Definition long_names : list text := filter (starts_with (T "--")) (flat_map op_names options).
  (** _match_abbrev *)
  Definition match_abbrev (s : text) : option text :=
    if mem s long_names then Some s
    else match filter (starts_with s) long_names with
         | [w] => Some w
         | _ => None
         end.
  Definition long_option (s : text) : option ooption := match match_abbrev s with Some w => find_option w | None => None end.
  (** _process_short_opts: the characters of "-abc" after the dash.  [inl (values, Some o)]: the value of [o] is the next argument. *)
  Fixpoint short_opts (chars : text) (values : ovalues) : orexit (ovalues * option ooption) :=
    match chars with
    | [] => inl (values, None)
    | c :: chars =>
        match find_option ["-"%char; c] with
        | None => usage_error
        | Some o =>
            if takes_value o then
              match chars with
              | [] => inl (values, Some o)
              | _ => match process_value o chars values with inl values => inl (values, None) | inr code => inr code end
              end
            else match process_flag o values with
                 | inl values => short_opts chars values
                 | inr code => inr code
                 end
        end
    end.
  (** _process_long_opt: "--name" or "--name=value" *)
  Definition long_opt (arg : text) (values : ovalues) : orexit (ovalues * option ooption) :=
    let '(name, explicit) := match split1 "="%char arg with Some (name, v) => (name, Some v) | None => (arg, None) end in
    match long_option name with
    | None => usage_error
    | Some o =>
        if takes_value o then
          match explicit with
          | None => inl (values, Some o)
          | Some v => match process_value o v values with inl values => inl (values, None) | inr code => inr code end
          end
        else
          match explicit with
          | Some _ => usage_error
          | None => match process_flag o values with inl values => inl (values, None) | inr code => inr code end
          end
    end.
  (** _process_args and parse_args: interspersed arguments are allowed *)
  Definition is_dash (arg : text) : bool := starts_with (T "-") arg && negb (text_eqb arg (T "-")).
  Fixpoint parse_args (rargs : list text) (values : ovalues) (largs : list text) : orexit (ovalues * list text) :=
    match rargs with
    | [] => inl (values, largs)
    | arg :: rargs =>
        if text_eqb arg (T "--") then inl (values, largs ++ rargs)
        else if is_dash arg then
          match (if starts_with (T "--") arg then long_opt arg values else short_opts (skipn 1 arg) values) with
          | inr code => inr code
          | inl (values, None) => parse_args rargs values largs
          | inl (values, Some o) =>
              match rargs with
              | [] => usage_error
              | v :: rargs => match process_value o v values with
                              | inl values => parse_args rargs values largs
                              | inr code => inr code
                              end
              end
          end
        else parse_args rargs values (largs ++ [arg])
    end.
End Optparse.

(** ** The options *)

Definition flag (names : string) (dest : string) : ooption := Opt (split_char " "%char (T names)) (T dest) OStoreTrue.
Definition int_opt (names : string) (dest : string) : ooption := Opt (split_char " "%char (T names)) (T dest) OStoreInt.
Definition str_opt (names : string) (dest : string) : ooption := Opt (split_char " "%char (T names)) (T dest) OStoreStr.
(** The option added by OptionParser *)
Definition help_option : ooption := Opt [T "-h"; T "--help"] (T "help") OHelp.
(** ptrace/debugger/application.py 81-91 *)
Definition common_options : list ooption :=
  [int_opt "--pid -p" "pid"; flag "--fork -f" "fork"; flag "--trace-exec" "trace_exec"; flag "--trace-clone" "trace_clone";
   flag "--no-stdout" "no_stdout"].
(** ptrace/debugger/application.py 36-44 *)
Definition log_options_ : list ooption := [flag "--quiet -q" "quiet"; flag "--verbose -v" "verbose"; flag "--debug" "debug"].
(** strace.py 39-78 *)
Definition strace_options : list ooption :=
  help_option :: common_options ++
  [flag "--enter" "enter"; flag "--profiler" "profiler"; flag "--type" "type"; flag "--name" "name";
   int_opt "--string-length -s" "string_length"; int_opt "--array-count" "array_count"; flag "--raw-socketcall" "raw_socketcall";
   str_opt "--output -o" "output"; str_opt "--ignore-regex" "ignore_regex"; flag "--address" "address";
   str_opt "--syscalls -e" "syscalls"; flag "--socket" "socket"; flag "--filename" "filename"; flag "--show-pid" "show_pid";
   flag "--list-syscalls" "list_syscalls"; flag "-i --show-ip" "show_ip"] ++ log_options_.
(** gdb.py 154-157 *)
Definition gdb_options : list ooption := help_option :: common_options ++ log_options_.
(** OptionParser.get_default_values(): the argument default= of the calls of add_option() *)
Definition default_of (o : ooption) : ovalue :=
  if text_eqb (op_dest o) (T "string_length") then OInt 300
  else if text_eqb (op_dest o) (T "array_count") then OInt 20
  else match op_action o with OStoreTrue => OBool false | _ => ONone end.
Definition default_values (options : list ooption) : ovalues :=
  flat_map (fun o => match op_action o with OHelp => [] | _ => [(op_dest o, default_of o)] end) options.

(** The attributes of self.options *)
Definition opt_bool (values : ovalues) (dest : string) : bool := match dget text_eqb (T dest) values with Some (OBool b) => b | _ => false end.
Definition opt_int (values : ovalues) (dest : string) : option Z := match dget text_eqb (T dest) values with Some (OInt n) => Some n | _ => None end.
Definition opt_str (values : ovalues) (dest : string) : option text := match dget text_eqb (T dest) values with Some (OStr t) => Some t | _ => None end.
Definition or_zero (o : option Z) : Z := match o with Some n => n | None => 0 end.
Definition log_of (values : ovalues) : log_options := LogOptions (opt_bool values "quiet") (opt_bool values "verbose") (opt_bool values "debug").

(** ptrace/debugger/application.py 32-34 *)
Definition processOptions (locate : text -> text) (program : list text) : list text :=
  match program with
  | [] => []
  | x :: l => locate x :: l
  end.

(** ** strace.py *)

(** strace.py 82-87: the lines printed; the sort is stable and the numbers are different *)
Fixpoint insert_num (x : Z * text) (l : list (Z * text)) : list (Z * text) :=
  match l with
  | [] => [x]
  | y :: l => if fst x <=? fst y then x :: y :: l else y :: insert_num x l
  end.
Definition list_lines (names : list (Z * text)) : list text :=
  map (fun x => padl 3 " "%char (str_int (fst x)) ++ T ": " ++ snd x) (fold_right insert_num [] names).
(** How the start of the program ends *)
Inductive started (A : Type) : Type :=
| Run (a : A)
| Exit (code : Z) (printed : list text).   (* exit(code) *)
Arguments Run {A} a.
Arguments Exit {A} code printed.
Definition soptions_of (values : ovalues) (regex : option (text -> bool)) (program : list text) : soptions :=
  SOptions (opt_int values "pid") program (opt_bool values "enter") (opt_bool values "type") (opt_bool values "name")
    (or_zero (opt_int values "string_length")) (or_zero (opt_int values "array_count")) (opt_bool values "raw_socketcall") regex
    (opt_bool values "address") (opt_str values "syscalls") (opt_bool values "socket") (opt_bool values "filename")
    (opt_bool values "show_pid") (opt_bool values "show_ip") (opt_bool values "fork") (opt_bool values "trace_exec")
    (opt_bool values "trace_clone").
(** strace.py 38-135.  [compile]: re.compile(), which gives the test of match() or fails; [locate]: locateProgram().  The
    result: the options, the set of shown calls and the other options.  The text printed for an invalid expression is not
    represented. *)
Definition strace_parse (p : platform) (compile : text -> res (text -> bool)) (locate : text -> text) (args : list text)
  : res (started (soptions * list text * ovalues)) :=
  match parse_args strace_options args (default_values strace_options) [] with
  | inr code => Ok (Exit code [])
  | inl (values, program) =>
      if opt_bool values "list_syscalls" then
        do names <- SYSCALL_NAMES p;
        Ok (Exit 0 (list_lines names))
      else if match opt_int values "pid", program with None, [] => true | _, _ => false end then Ok (Exit 1 [])
      else
        do only <- parse_filter p (soptions_of values None program);
        match only with
        | inr lines => Ok (Exit 1 lines)
        | inl only =>
            match opt_str values "ignore_regex" with
            | Some (c :: t) =>
                match compile (c :: t) with
                | Ok regex => Ok (Run (soptions_of values (Some regex) (processOptions locate program), only, values))
                | Err _ => Ok (Exit 1 [])
                end
            | _ => Ok (Run (soptions_of values None (processOptions locate program), only, values))
            end
        end
  end.

(** ** gdb.py *)
Record goptions : Type := GOptions { go_pid : option Z; go_program : list text; go_fork : bool; go_trace_exec : bool; go_trace_clone : bool; go_no_stdout : bool }.
(** gdb.py 153-165 *)
Definition gdb_parse (locate : text -> text) (args : list text) : started (goptions * ovalues) :=
  match parse_args gdb_options args (default_values gdb_options) [] with
  | inr code => Exit code []
  | inl (values, program) =>
      match opt_int values "pid", program with
      | None, [] => Exit 1 []
      | pid, program => Run (GOptions pid (processOptions locate program) (opt_bool values "fork") (opt_bool values "trace_exec")
                               (opt_bool values "trace_clone") (opt_bool values "no_stdout"), values)
      end
  end.
