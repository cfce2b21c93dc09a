(** * RunProps: C115, the runner of the tests. *)
From Coq Require Import ZArith List Ascii String Bool.
From Verif Require Import PyBase RunModel RunSpec RunProofs.
Import ListNotations.
Open Scope Z_scope.

(** the files looked at are the files of Python code, at any depth, and no others *)
Theorem c115_files : forall tree prefix dir path,
  (exists modname, In (modname, path) (list_dir tree prefix dir)) <->
  exists comps name, file_at tree (comps ++ [name]) /\ python_file name /\ path = full_path dir (comps ++ [name]).
Proof. exact files_spec. Qed.
Print Assumptions c115_files.
(** without packages a module has the name of its path *)
Theorem c115_names_partial : forall tree prefix dir modname path, no_package tree = true ->
  In (modname, path) (list_dir tree prefix dir) ->
  exists comps m, file_at tree comps /\ path = full_path dir comps /\ module_of comps m /\ modname = prefix ++ m.
Proof. exact names_spec. Qed.
Print Assumptions c115_names_partial.
(** a module of a package below the directory has not: the name of the package is there twice *)
Theorem c115_names_refuted : exists tree, In (T "sub.sub.test_a", T "tests/sub/test_a.py") (list_dir tree [] (T "tests")) /\
  file_at tree [T "sub"; T "test_a.py"] /\ ~ exists p, In (T "sub.test_a", p) (list_dir tree [] (T "tests")).
Proof. exact names_doubled. Qed.
Print Assumptions c115_names_refuted.
(** what is run, and the status *)
Theorem c115_run : forall loader tests search run o testsdir tree l lines code,
  runtests loader tests search run o testsdir tree = (l, lines, ESystemExit code) ->
  (forall m path e, In (m, path) (list_dir tree [] testsdir) -> m <> T "runtests" -> loader m path <> LAbort e) ->
  (forall f e, tests f = Err e -> False) ->
  (code = if run l then 0 else 1) /\
  forall id, In id l <->
    (exists m path names name ids, In (m, path) (list_dir tree [] testsdir) /\ m <> T "runtests" /\ loader m path = LMod names /\
       In name names /\ contains (T "Test") name = true /\ tests (path, name) = Ok ids /\ In id ids) /\
    match ro_pattern o with
    | None | Some [] => True
    | Some pats => if ro_exclude o then forall pat, In pat pats -> search pat id = false else exists pat, In pat pats /\ search pat id = true
    end.
Proof. exact run_spec. Qed.
Print Assumptions c115_run.
(** modules that can not be loaded: all are named, none stops the others *)
Theorem c115_skipped : forall loader files mods lines, load_modules loader files = (mods, lines, Ok tt) ->
  (forall f, In f files -> fst f <> T "runtests" -> forall e, loader (fst f) (snd f) <> LAbort e) /\
  (forall path names, In (path, names) mods <-> exists m, In (m, path) files /\ m <> T "runtests" /\ loader m path = LMod names) /\
  (forall t, In t lines <-> exists m path msg, In (m, path) files /\ m <> T "runtests" /\ loader m path = LFail msg /\ t = T "Skipping '" ++ m ++ T "': " ++ msg).
Proof. exact load_ok. Qed.
Print Assumptions c115_skipped.
(** the first other failure ends the run with this exception *)
Theorem c115_aborted : forall loader tests search run o testsdir tree files m path files' e,
  list_dir tree [] testsdir = files ++ (m, path) :: files' -> m <> T "runtests" -> loader m path = LAbort e ->
  (forall m path e, In (m, path) files -> m <> T "runtests" -> loader m path <> LAbort e) ->
  exists lines, runtests loader tests search run o testsdir tree = ([], lines, e).
Proof. exact aborted_spec. Qed.
Print Assumptions c115_aborted.
(** but a run in which no module could be loaded is a success *)
Theorem c115_success_refuted : exists loader tests tree lines, let search := fun _ _ : text => true in
  runtests loader tests search (fun _ => true) (RunOptions false None false false) (T "tests") tree = ([], lines, ESystemExit 0) /\
  file_at tree [T "test_gdb.py"] /\ lines = [T "Skipping 'test_gdb': No module named 'ptrace'"].
Proof. exact skipped_is_success. Qed.
Print Assumptions c115_success_refuted.
(** -q, nothing, -v: CRITICAL, ERROR, WARNING; nothing more can be asked for *)
Theorem c115_verbosity : forall o, verbosity o = (if ro_quiet o then 0 else if ro_verbose o then 2 else 1) /\
  log_level (verbosity o) = Some (if ro_quiet o then 50 else if ro_verbose o then 30 else 40).
Proof. exact verbosity_spec. Qed.
Print Assumptions c115_verbosity.
Example c115_ex :
  let tree := NDir [(T "test_a.py", NFile); (T "_hidden.py", NFile); (T "readme.txt", NFile);
                    (T "deep", NDir [(T "test_b.py", NFile); (T "runtests.py", NFile); (T "broken.py", NFile)]); (T "runtests.py", NFile)] in
  let loader m (_ : text) := if text_eqb m (T "deep.broken") then LFail (T "oops") else LMod [T "os"; T "Test1"; T "MyTest"] in
  let tests (f : text * text) := Ok [fst f ++ T ":" ++ snd f ++ T ".x"; fst f ++ T ":" ++ snd f ++ T ".y"] in
  runtests loader tests contains (fun l => Nat.eqb (List.length l) 3) (RunOptions false (Some [T "_b.py:MyTest"; T "deep/test_b.py:Test1.y"]) false true) (T "tests/") tree =
  ([T "tests/deep/test_b.py:Test1.y"; T "tests/deep/test_b.py:MyTest.x"; T "tests/deep/test_b.py:MyTest.y"], [T "Skipping 'deep.broken': oops"], ESystemExit 0).
Proof. vm_compute. reflexivity. Qed.
